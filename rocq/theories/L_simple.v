(** * L_simple: proofs about package simple. *)
From Verif Require Import GoBase GoFloat L_base L_float M_grate M_simple S_simple.
From Coq Require Import Permutation.

(** ** split and join *)
Lemma split_byte_nonempty : forall sep l, split_byte sep l <> [].
Proof.
  induction l as [|c l IH]; simpl; [discriminate|].
  destruct (c =? sep); [discriminate|]. destruct (split_byte sep l); discriminate.
Qed.

Lemma split_byte_no_sep : forall sep l, Forall (fun f => ~ In sep f) (split_byte sep l).
Proof.
  induction l as [|c l IH]; simpl.
  - constructor; auto.
  - destruct (Z.eqb_spec c sep).
    + constructor; auto.
    + destruct (split_byte sep l) as [|h t].
      * repeat constructor. simpl. intuition congruence.
      * inversion IH; subst. constructor; auto. simpl. intuition congruence.
Qed.

Lemma join_split : forall sep l, join [sep] (split_byte sep l) = l.
Proof.
  induction l as [|c l IH]; simpl; auto.
  pose proof (split_byte_nonempty sep l) as Hn.
  destruct (Z.eqb_spec c sep).
  - subst. destruct (split_byte sep l) as [|h t]; [congruence|].
    change (join [sep] ([] :: h :: t)) with ([] ++ [sep] ++ join [sep] (h :: t)).
    rewrite IH. reflexivity.
  - destruct (split_byte sep l) as [|h t]; [congruence|].
    destruct t as [|h2 t].
    + simpl in *. congruence.
    + change (join [sep] ((c :: h) :: h2 :: t)) with ((c :: h) ++ [sep] ++ join [sep] (h2 :: t)).
      change (join [sep] (h :: h2 :: t)) with (h ++ [sep] ++ join [sep] (h2 :: t)) in IH.
      rewrite <- app_comm_cons. rewrite IH. reflexivity.
Qed.

Lemma split_byte_app : forall sep a b, ~ In sep a ->
  split_byte sep (a ++ sep :: b) = a :: split_byte sep b.
Proof.
  induction a as [|c a IH]; intros b H; simpl.
  - rewrite Z.eqb_refl. reflexivity.
  - destruct (Z.eqb_spec c sep); [exfalso; apply H; left; auto|].
    rewrite IH; [reflexivity|]. intros Hi; apply H; right; auto.
Qed.

Lemma split_byte_none : forall sep a, ~ In sep a -> split_byte sep a = [a].
Proof.
  induction a as [|c a IH]; intros H; simpl; auto.
  destruct (Z.eqb_spec c sep); [exfalso; apply H; left; auto|].
  rewrite IH; auto. intros Hi; apply H; right; auto.
Qed.

Lemma split_join : forall sep fs, fs <> [] -> Forall (fun f => ~ In sep f) fs ->
  split_byte sep (join [sep] fs) = fs.
Proof.
  induction fs as [|f fs IH]; intros Hn H; [congruence|].
  inversion H; subst. destruct fs as [|g fs].
  - simpl. apply split_byte_none; auto.
  - change (join [sep] (f :: g :: fs)) with (f ++ sep :: join [sep] (g :: fs)).
    rewrite split_byte_app by auto. rewrite IH; auto. discriminate.
Qed.

Lemma FieldsOf_split : forall line fs, FieldsOf line fs <-> fs = split_byte 9 line.
Proof.
  intros line fs. split.
  - intros (H1 & H2 & H3). subst. symmetry. apply split_join; auto.
  - intros ->. repeat split.
    + apply split_byte_nonempty.
    + apply split_byte_no_sep.
    + symmetry. apply join_split.
Qed.

(** ** lines *)
Lemma raw_lines_nil : raw_lines [] = [].
Proof. reflexivity. Qed.

Lemma raw_lines_more : forall l rest, ~ In 10 l ->
  raw_lines (l ++ 10 :: rest) = l :: raw_lines rest.
Proof.
  intros l rest H. unfold raw_lines. rewrite split_byte_app by auto.
  pose proof (split_byte_nonempty 10 rest) as Hn.
  simpl rev.
  destruct (rev (split_byte 10 rest)) as [|x r] eqn:E.
  - apply (f_equal (@rev _)) in E. rewrite rev_involutive in E. simpl in E. congruence.
  - simpl. destruct x.
    + rewrite rev_app_distr. reflexivity.
    + reflexivity.
Qed.

Lemma raw_lines_last : forall l, l <> [] -> ~ In 10 l -> raw_lines l = [l].
Proof.
  intros l Hn H. unfold raw_lines. rewrite split_byte_none by auto. simpl. destruct l; congruence.
Qed.

Lemma Lines_raw : forall content ls, Lines content ls -> ls = raw_lines content.
Proof.
  induction 1.
  - reflexivity.
  - rewrite raw_lines_last; auto.
  - rewrite raw_lines_more by auto. congruence.
Qed.

Lemma first_newline : forall content, ~ In 10 content \/
  exists l rest, content = l ++ 10 :: rest /\ ~ In 10 l.
Proof.
  induction content as [|c content IH].
  - left. auto.
  - destruct (Z.eq_dec c 10).
    + subst. right. exists [], content. split; auto.
    + destruct IH as [H|(l & rest & E & H)].
      * left. intros [Hc|Hc]; auto.
      * right. exists (c :: l), rest. subst. split; auto. intros [Hc|Hc]; auto.
Qed.

Lemma raw_lines_Lines : forall content, Lines content (raw_lines content).
Proof.
  intros content.
  assert (G : forall n content, (List.length content <= n)%nat -> Lines content (raw_lines content)).
  { clear content. induction n as [|n IH]; intros content Hl.
    - destruct content; [constructor|simpl in Hl; lia].
    - destruct (first_newline content) as [H|(l & rest & E & H)].
      + destruct content as [|c content]; [constructor|].
        rewrite raw_lines_last; [|discriminate|auto]. apply Lines_last; [discriminate|auto].
      + subst. rewrite raw_lines_more by auto. apply Lines_more; auto. apply IH.
        rewrite app_length in Hl. simpl in Hl. lia. }
  apply (G (List.length content)). lia.
Qed.

Lemma drop_cr_strip : forall l l', StripCR l l' <-> l' = drop_cr l.
Proof.
  assert (A : forall x, drop_cr (x ++ [13]) = x).
  { intros. unfold drop_cr. rewrite rev_app_distr. simpl. apply rev_involutive. }
  assert (B : forall l, (forall x, l <> x ++ [13]) -> drop_cr l = l).
  { intros l H. unfold drop_cr. destruct (rev l) as [|c r] eqn:E; auto.
    destruct c as [|p|p]; auto. do 4 (destruct p as [p|p|]; auto).
    exfalso. apply (H (rev r)). rewrite <- (rev_involutive l), E. reflexivity. }
  intros l l'. split.
  - intros [->|[-> H]]; symmetry; auto.
  - intros ->. destruct (rev l) as [|c r] eqn:E.
    + right. assert (l = []) by (rewrite <- (rev_involutive l), E; auto). subst. split; auto.
      intros x Hx. destruct x; discriminate.
    + destruct (Z.eq_dec c 13) as [->|Hc].
      * left. assert (El : l = rev r ++ [13]) by (rewrite <- (rev_involutive l), E; auto).
        rewrite El, A. reflexivity.
      * right. assert (forall x, l <> x ++ [13]).
        { intros x Hx. subst. rewrite rev_app_distr in E. simpl in E. congruence. }
        rewrite B; auto.
Qed.

(** ** the rows OpenTSV reads *)
Lemma existsb_too_long : forall ls,
  existsb (fun l : bytes => maxLine <? zlen l) ls = false <-> Forall (fun l : bytes => zlen l <= 65535) ls.
Proof.
  induction ls as [|l ls IH]; simpl.
  - split; auto.
  - rewrite orb_false_iff, IH. unfold maxLine. split.
    + intros [H1 H2]. constructor; auto. apply Z.ltb_ge in H1. lia.
    + intros H. inversion H; subst. split; auto. apply Z.ltb_ge. lia.
Qed.

Lemma rows_RowOf : forall ls, Forall2 RowOf ls (map (split_byte 9) (map drop_cr ls)).
Proof.
  induction ls as [|l ls IH]; simpl; constructor; auto.
  exists (drop_cr l). split; [apply drop_cr_strip; auto|apply FieldsOf_split; auto].
Qed.

Lemma RowOf_unique : forall ls rows, Forall2 RowOf ls rows -> rows = map (split_byte 9) (map drop_cr ls).
Proof.
  induction 1 as [|l r ls rows (l' & H1 & H2) _ IH]; simpl; auto.
  apply drop_cr_strip in H1. apply FieldsOf_split in H2. congruence.
Qed.

(** ** column counts *)
Lemma bump_keys : forall c m k, In k (map fst (bump c m)) <-> k = c \/ In k (map fst m).
Proof.
  induction m as [|[k0 n0] m IH]; intros k; simpl.
  - intuition.
  - destruct (Z.eqb_spec k0 c); simpl; [|rewrite IH]; intuition (subst; auto).
Qed.

Lemma bump_nodup : forall c m, NoDup (map fst m) -> NoDup (map fst (bump c m)).
Proof.
  induction m as [|[k0 n0] m IH]; intros H; simpl.
  - repeat constructor. auto.
  - inversion H; subst. destruct (Z.eqb_spec k0 c); simpl.
    + constructor; auto.
    + constructor; auto. rewrite bump_keys. intuition congruence.
Qed.

Definition lookup0 (c : Z) (m : list (Z * Z)) : Z :=
  match zfind c m with Some n => n | None => 0 end.

Lemma bump_lookup : forall c m k, lookup0 k (bump c m) = lookup0 k m + (if k =? c then 1 else 0).
Proof.
  unfold lookup0. induction m as [|[k0 n0] m IH]; intros k; simpl.
  - destruct (Z.eqb_spec k c); auto.
  - destruct (Z.eqb_spec k0 c); simpl.
    + subst. destruct (Z.eqb_spec k c); subst.
      * lia.
      * destruct (zfind k m); lia.
    + destruct (Z.eqb_spec k k0); subst.
      * destruct (Z.eqb_spec k0 c); [congruence|lia].
      * apply IH.
Qed.

Lemma count_cols_inv : forall rows m, NoDup (map fst m) ->
  let m' := fold_left (fun m r => bump (zlen r) m) rows m in
  NoDup (map fst m') /\ forall c, lookup0 c m' = lookup0 c m + width_count c rows.
Proof.
  induction rows as [|r rows IH]; intros m Hm; simpl.
  - split; auto. intros c. unfold width_count; simpl. rewrite zlen_nil. lia.
  - destruct (IH (bump (zlen r) m) (bump_nodup _ _ Hm)) as [H1 H2]. split; auto.
    intros c. rewrite H2, bump_lookup. unfold width_count. simpl filter.
    rewrite (Z.eqb_sym c). destruct (Z.eqb_spec (zlen r) c); rewrite ?zlen_cons; lia.
Qed.

Lemma zfind_in : forall A (m : list (Z * A)) c n, NoDup (map fst m) ->
  (In (c, n) m <-> zfind c m = Some n).
Proof.
  induction m as [|[k v] m IH]; intros c n H; simpl.
  - split; [intros []|discriminate].
  - inversion H; subst. destruct (Z.eqb_spec c k).
    + subst. split.
      * intros [E|E]; [congruence|]. exfalso. apply H2. apply in_map_iff. exists (k, n). auto.
      * intros E. left. congruence.
    + rewrite <- IH by auto. split; [intros [E|E]; [congruence|auto]|auto].
Qed.

Lemma count_cols_in : forall rows c n, In (c, n) (count_cols rows) ->
  n = width_count c rows /\ 0 < n.
Proof.
  intros rows c n H.
  destruct (count_cols_inv rows [] (NoDup_nil _)) as [H1 H2]. fold (count_cols rows) in *.
  apply zfind_in in H as Hf; auto. specialize (H2 c). unfold lookup0 in H2. rewrite Hf in H2.
  simpl in H2. split; [lia|].
  (* entries are positive *)
  assert (G : forall (rows : list (list gostr)) (m : list (Z * Z)), Forall (fun e => 0 < snd e) m ->
     Forall (fun e => 0 < snd e) (fold_left (fun m r => bump (zlen r) m) rows m)).
  { clear. induction rows as [|r rows IH]; intros m Hm; simpl; auto. apply IH.
    clear IH. induction Hm as [|[k v] m Hv Hm IH]; simpl.
    - repeat constructor. 
    - destruct (k =? zlen r); constructor; simpl in *; auto; lia. }
  specialize (G rows [] (Forall_nil _)). fold (count_cols rows) in G.
  rewrite Forall_forall in G. apply (G (c, n) H).
Qed.

Lemma count_cols_has : forall rows c, 0 < width_count c rows ->
  In (c, width_count c rows) (count_cols rows).
Proof.
  intros rows c H.
  destruct (count_cols_inv rows [] (NoDup_nil _)) as [H1 H2]. fold (count_cols rows) in *.
  specialize (H2 c). unfold lookup0 in H2. simpl in H2. apply zfind_in; auto.
  destruct (zfind c (count_cols rows)); [f_equal; lia|lia].
Qed.

Lemma filter_le : forall A (p : A -> bool) l, zlen (filter p l) <= zlen l.
Proof.
  induction l as [|x l IH]; simpl; [lia|]. destruct (p x); rewrite ?zlen_cons; lia.
Qed.

Lemma width_count_le : forall c rows, width_count c rows <= zlen rows.
Proof. intros. apply filter_le. Qed.

(** ** the scan over the map *)
Definition good2 (total : Z) (e : Z * Z) : bool :=
  (1 <? fst e) && (10 <? snd e) && fgt (fdiv (f_of_Z (snd e)) (f_of_Z total)) f_08.
Definition good1 (e : Z * Z) : bool := (1 <? fst e) && (25 <? snd e).

Lemma look_fold : forall total es g, 0 <= g <= 2 ->
  fold_left (look total) es g =
  if (g =? 2) || existsb (good2 total) es then 2
  else if (g =? 1) || existsb good1 es then 1 else 0.
Proof.
  induction es as [|[c n] es IH]; intros g Hg; simpl.
  - assert (g = 0 \/ g = 1 \/ g = 2) as [->|[->| ->]] by lia; reflexivity.
  - rewrite IH.
    + unfold good2, good1, look; simpl.
      destruct (Z.leb_spec c 1).
      { destruct (Z.ltb_spec 1 c); [lia|]. simpl. reflexivity. }
      destruct (Z.ltb_spec 1 c); [|lia]. simpl.
      destruct (10 <? n) eqn:E10; simpl.
      * destruct (fgt (fdiv (f_of_Z n) (f_of_Z total)) f_08) eqn:Ef; simpl.
        { assert (g = 0 \/ g = 1 \/ g = 2) as [->|[->| ->]] by lia; reflexivity. }
        assert (g = 0 \/ g = 1 \/ g = 2) as [->|[->| ->]] by lia; simpl;
          destruct (25 <? n); simpl; destruct (existsb (good2 total) es); reflexivity.
      * assert (g = 0 \/ g = 1 \/ g = 2) as [->|[->| ->]] by lia; simpl;
          destruct (25 <? n); simpl; destruct (existsb (good2 total) es); reflexivity.
    + unfold look. destruct (c <=? 1); [lia|].
      destruct ((10 <? n) && fgt (fdiv (f_of_Z n) (f_of_Z total)) f_08); [lia|].
      destruct ((25 <? n) && (g =? 0)); lia.
Qed.

Lemma existsb_perm : forall A (p : A -> bool) l l', Permutation l l' -> existsb p l = existsb p l'.
Proof.
  induction 1; simpl; auto.
  - rewrite IHPermutation. auto.
  - destruct (p x), (p y); auto.
  - congruence.
Qed.

Lemma looks_good_order : forall it1 it2 rows, any_order it1 -> any_order it2 ->
  looks_good it1 rows = looks_good it2 rows.
Proof.
  intros it1 it2 rows H1 H2. unfold looks_good. rewrite !look_fold by lia.
  rewrite <- (existsb_perm _ _ _ _ (H1 (count_cols rows))), <- (existsb_perm _ _ _ _ (H2 (count_cols rows))).
  rewrite <- (existsb_perm _ _ _ _ (H1 (count_cols rows))), <- (existsb_perm _ _ _ _ (H2 (count_cols rows))).
  reflexivity.
Qed.

Lemma looks_good_spec : forall it rows, any_order it -> zlen rows <= 2 ^ 50 ->
  (looks_good it rows =? 1) = false <-> shape_ok rows.
Proof.
  intros it rows Hit Hlen. unfold looks_good. rewrite look_fold by lia.
  rewrite <- !(existsb_perm _ _ _ _ (Hit (count_cols rows))). simpl.
  assert (E2 : existsb (good2 (zlen rows)) (count_cols rows) = true <->
     exists c, 1 < c /\ 10 < width_count c rows /\ 4 * zlen rows < 5 * width_count c rows).
  { rewrite existsb_exists. split.
    - intros ([c n] & Hin & Hg). apply count_cols_in in Hin as [Hn Hpos].
      unfold good2 in Hg. simpl in Hg. rewrite !andb_true_iff in Hg. destruct Hg as [[Hc H10] Hf].
      apply Z.ltb_lt in Hc, H10. pose proof (width_count_le c rows).
      change f_08 with f08 in Hf. rewrite ratio_gt_08 in Hf by lia. apply Z.ltb_lt in Hf.
      exists c. subst n. auto.
    - intros (c & Hc & H10 & Hf). exists (c, width_count c rows). split.
      + apply count_cols_has. lia.
      + unfold good2. simpl. pose proof (width_count_le c rows).
        change f_08 with f08. rewrite ratio_gt_08 by lia.
        rewrite !andb_true_iff. repeat split; apply Z.ltb_lt; lia. }
  assert (E1 : existsb good1 (count_cols rows) = false <-> forall c, 1 < c -> width_count c rows <= 25).
  { split.
    - intros H c Hc. destruct (Z.le_gt_cases (width_count c rows) 25); auto. exfalso.
      assert (existsb good1 (count_cols rows) = true); [|congruence].
      apply existsb_exists. exists (c, width_count c rows). split; [apply count_cols_has; lia|].
      unfold good1. simpl. apply andb_true_iff. split; apply Z.ltb_lt; lia.
    - intros H. destruct (existsb good1 (count_cols rows)) eqn:E; auto. exfalso.
      apply existsb_exists in E as ([c n] & Hin & Hg). apply count_cols_in in Hin as [Hn Hpos].
      unfold good1 in Hg. simpl in Hg. apply andb_true_iff in Hg as [Hc H25].
      apply Z.ltb_lt in Hc, H25. specialize (H c Hc). lia. }
  unfold shape_ok. rewrite <- E1, <- E2.
  destruct (existsb (good2 (zlen rows)) (count_cols rows)),
           (existsb good1 (count_cols rows)); simpl; intuition discriminate.
Qed.

(** ** OpenTSV *)
Lemma open_tsv_ok : forall it fn content t, any_order it ->
  open_tsv it fn (FileData content None) = Ok t ->
  exists ls, Lines content ls /\ Forall (fun l => zlen l <= 65535) ls /\
    Forall2 RowOf ls (sf_rows t) /\ sf_iter t = -1 /\ sf_filename t = fn /\
    looks_good it (sf_rows t) <> 1.
Proof.
  intros it fn content t Hit H. unfold open_tsv, scan_lines in H.
  destruct (existsb (fun l : bytes => maxLine <? zlen l) (raw_lines content)) eqn:E; [discriminate|]. simpl in H.
  destruct (looks_good it (map (split_byte 9) (map drop_cr (raw_lines content))) =? 1) eqn:El; [discriminate|]. inversion H; subst; clear H. simpl.
  exists (raw_lines content). repeat split.
  - apply raw_lines_Lines.
  - apply existsb_too_long; auto.
  - apply rows_RowOf.
  - apply Z.eqb_neq. exact El.
Qed.

Lemma open_tsv_accept : forall it fn content ls rows, any_order it ->
  Lines content ls -> Forall (fun l => zlen l <= 65535) ls -> Forall2 RowOf ls rows ->
  zlen rows <= 2 ^ 50 -> shape_ok rows ->
  open_tsv it fn (FileData content None) = Ok (mkSimple fn rows (-1)).
Proof.
  intros it fn content ls rows Hit HL Hlen Hrows Hr Hshape.
  apply Lines_raw in HL. subst ls. apply existsb_too_long in Hlen.
  apply RowOf_unique in Hrows. subst rows.
  unfold open_tsv, scan_lines. rewrite Hlen. simpl.
  apply (looks_good_spec it) in Hshape; auto. rewrite Hshape. reflexivity.
Qed.

Lemma open_tsv_reject : forall it fn content ls rows, any_order it ->
  Lines content ls -> Forall (fun l => zlen l <= 65535) ls -> Forall2 RowOf ls rows ->
  zlen rows <= 2 ^ 50 -> ~ shape_ok rows ->
  open_tsv it fn (FileData content None) = Err ENotInFormat.
Proof.
  intros it fn content ls rows Hit HL Hlen Hrows Hr Hshape.
  apply Lines_raw in HL. subst ls. apply existsb_too_long in Hlen.
  apply RowOf_unique in Hrows. subst rows.
  unfold open_tsv, scan_lines. rewrite Hlen. simpl.
  destruct (looks_good it (map (split_byte 9) (map drop_cr (raw_lines content))) =? 1) eqn:E; auto. exfalso. apply Hshape.
  apply (looks_good_spec it); auto.
Qed.

(** ** round trip *)
Lemma join_no_newline : forall r, Forall plain_field r -> ~ In 10 (join [9] r).
Proof.
  induction r as [|f r IH]; intros H Hin; [destruct Hin|].
  inversion H as [|? ? [H1 H2] H3]; subst. destruct r as [|g r].
  - simpl in Hin. auto.
  - change (join [9] (f :: g :: r)) with (f ++ [9] ++ join [9] (g :: r)) in Hin.
    rewrite !in_app_iff in Hin. destruct Hin as [Hin|[[Hin|[]]|Hin]]; try discriminate; auto.
    apply IH; auto.
Qed.

Lemma tsv_text_lines : forall rows, plain_table rows ->
  Lines (tsv_text rows) (map (join [9]) rows).
Proof.
  induction 1 as [|r rows (H1 & H2 & H3 & H4) _ IH]; simpl; [constructor|].
  rewrite <- app_assoc. apply Lines_more; auto. apply join_no_newline; auto.
Qed.

Lemma tsv_text_rows : forall rows, plain_table rows ->
  Forall2 RowOf (map (join [9]) rows) rows /\
  Forall (fun l => zlen l <= 65535) (map (join [9]) rows).
Proof.
  induction 1 as [|r rows (H1 & H2 & H3 & H4) _ [IH1 IH2]]; simpl; split; constructor; auto.
  exists (join [9] r). split.
  - right. auto.
  - split; [auto|split; auto]. eapply Forall_impl; [|exact H2]. intros f [Hf _]. exact Hf.
Qed.

Lemma tsv_round_trip : forall it fn rows, any_order it -> plain_table rows ->
  zlen rows <= 2 ^ 50 -> shape_ok rows ->
  open_tsv it fn (FileData (tsv_text rows) None) = Ok (mkSimple fn rows (-1)).
Proof.
  intros it fn rows Hit Hp Hl Hs. destruct (tsv_text_rows rows Hp) as [H1 H2].
  eapply open_tsv_accept; eauto. apply tsv_text_lines; auto.
Qed.

(** ** cursor *)
Lemma nexts_state : forall k t,
  sf_rows (fst (nexts k t)) = sf_rows t /\ sf_filename (fst (nexts k t)) = sf_filename t /\
  sf_iter (fst (nexts k t)) = sf_iter t + Z.of_nat k.
Proof.
  induction k as [|k IH]; intros t; simpl.
  - repeat split; lia.
  - destruct (IH t) as (H1 & H2 & H3). repeat split; auto. rewrite H3. lia.
Qed.

Lemma cursor : forall fn rows k, (0 < k)%nat ->
  let '(t, more) := nexts k (mkSimple fn rows (-1)) in
  more = (Z.of_nat k <=? zlen rows) /\
  forall row, nth_error rows (k - 1) = Some row ->
    sf_strings t = Ok row /\
    sf_types t = Ok (map (fun f => match f with [] => bs "blank" | _ => bs "string" end) row) /\
    sf_formats t = Ok (repeat (bs "General") (List.length row)).
Proof.
  intros fn rows k Hk. destruct (nexts k (mkSimple fn rows (-1))) as [t more] eqn:E.
  pose proof (nexts_state k (mkSimple fn rows (-1))) as (H1 & H2 & H3). rewrite E in *.
  simpl in *. split.
  - destruct k as [|k]; [lia|]. simpl in E.
    pose proof (nexts_state k (mkSimple fn rows (-1))) as (G1 & G2 & G3). simpl in *.
    unfold sf_next in E. injection E as Et Em. rewrite <- Em, G1, G3.
    destruct (Z.ltb_spec (-1 + Z.of_nat k + 1) (zlen rows)),
             (Z.leb_spec (Z.of_nat (S k)) (zlen rows)); auto; lia.
  - intros row Hrow. unfold sf_strings, sf_types, sf_formats.
    rewrite H1, H3. replace (-1 + Z.of_nat k) with (Z.of_nat (k - 1)) by lia.
    rewrite (idx_ok _ rows (Z.of_nat (k - 1)) row); [|lia|rewrite Nat2Z.id; auto].
    simpl. repeat split; auto. f_equal.
    clear. induction row; simpl; congruence.
Qed.

Lemma cursor_after : forall fn rows k, zlen rows < Z.of_nat k ->
  let '(t, more) := nexts k (mkSimple fn rows (-1)) in
  more = false /\ sf_strings t = Panic.
Proof.
  intros fn rows k Hk. pose proof (zlen_nonneg _ rows).
  pose proof (cursor fn rows k ltac:(lia)) as Hc.
  pose proof (nexts_state k (mkSimple fn rows (-1))) as (H1 & H2 & H3).
  destruct (nexts k (mkSimple fn rows (-1))) as [t more]. simpl in *.
  destruct Hc as [Hm _]. split.
  - rewrite Hm. apply Z.leb_gt. lia.
  - unfold sf_strings. apply idx_out. rewrite H1, H3. lia.
Qed.

(** ** Scan *)
Lemma scan_all_spec : forall row ds, zlen row = zlen ds ->
  let '(ds', e) := scan_all row ds in
  exists n, (n <= List.length ds)%nat /\
    (* the first n destinations were filled without error *)
    (forall i v d, (i < n)%nat -> nth_error row i = Some v -> nth_error ds i = Some d ->
        snd (scan_one v d) = None /\ nth_error ds' i = Some (fst (scan_one v d))) /\
    match e with
    | None => n = List.length ds /\ List.length ds' = List.length ds
    | Some err =>
        (* destination n stopped the scan; everything after it is untouched *)
        exists v d, nth_error row n = Some v /\ nth_error ds n = Some d /\
          snd (scan_one v d) = Some err /\ nth_error ds' n = Some (fst (scan_one v d)) /\
          forall i, (n < i)%nat -> nth_error ds' i = nth_error ds i
    end.
Proof.
  intros row ds. revert row. induction ds as [|d ds IH]; intros row Hl.
  - simpl. exists 0%nat. repeat split; simpl; try lia.
  - destruct row as [|v row].
    { rewrite zlen_nil, zlen_cons in Hl. pose proof (zlen_nonneg _ ds). lia. }
    rewrite !zlen_cons in Hl. simpl scan_all.
    destruct (scan_one v d) as [d1 e1] eqn:E1. destruct e1 as [err|].
    + exists 0%nat. repeat split; simpl; try lia.
      exists v, d. rewrite E1. repeat split; auto.
      intros i Hi. destruct i; [lia|]. reflexivity.
    + specialize (IH row ltac:(lia)). destruct (scan_all row ds) as [ds' e].
      destruct IH as (n & Hn & Hpre & Hend).
      exists (S n). repeat split.
      * simpl. lia.
      * destruct i; simpl in *.
        { inversion H0; inversion H1; subst. rewrite E1. reflexivity. }
        { apply (Hpre i v0 d0); auto. lia. }
      * destruct i; simpl in *.
        { inversion H0; inversion H1; subst. rewrite E1. reflexivity. }
        { apply (Hpre i v0 d0); auto. lia. }
      * destruct e as [err|].
        { destruct Hend as (v' & d' & A1 & A2 & A3 & A4 & A5). exists v', d'. simpl.
          repeat split; auto. intros i Hi. destruct i; [lia|]. simpl. apply A5. lia. }
        { destruct Hend. simpl. split; congruence. }
Qed.

(** ** OpenCSV *)
Lemma open_csv_fails : forall it rd fn f, exists e, open_csv it rd fn f = Err e.
Proof.
  intros it rd fn f. destruct f as [e|content re]; simpl; eauto.
  destruct (rd content re) as [recs e]. destruct e; simpl; eauto;
    destruct (zlen recs <? 10); eauto.
Qed.

(** ** text without tabs is one column *)
Lemma no_tab_fields : forall l, ~ In 9 l -> split_byte 9 l = [l].
Proof. intros. apply split_byte_none; auto. Qed.

Lemma raw_lines_in : forall content l c, In l (raw_lines content) -> In c l -> In c content.
Proof.
  intros content l c Hl Hc. pose proof (raw_lines_Lines content) as HL.
  remember (raw_lines content) as ls eqn:E. clear E.
  induction HL.
  - destruct Hl.
  - destruct Hl as [->|[]]. auto.
  - destruct Hl as [->|Hl]; apply in_or_app; auto. right. right. auto.
Qed.

Lemma drop_cr_in : forall l c, In c (drop_cr l) -> In c l.
Proof.
  intros l c H. destruct (proj2 (drop_cr_strip l (drop_cr l)) eq_refl) as [E|[E _]].
  - rewrite E. apply in_or_app. auto.
  - rewrite E in H. auto.
Qed.

Lemma width_one : forall rows c, Forall (fun r : list gostr => zlen r = 1) rows -> 1 < c ->
  width_count c rows = 0.
Proof.
  intros rows c H Hc. unfold width_count. induction H as [|r rows Hr _ IH]; simpl; auto.
  rewrite Hr. destruct (Z.eqb_spec 1 c); [lia|]. exact IH.
Qed.

Lemma open_tsv_no_tabs : forall it fn content, any_order it -> ~ In 9 content ->
  Forall (fun l => zlen l <= 65535) (raw_lines content) -> zlen content <= 2 ^ 50 ->
  open_tsv it fn (FileData content None) =
  Ok (mkSimple fn (map (fun l => [drop_cr l]) (raw_lines content)) (-1)).
Proof.
  intros it fn content Hit Hnt Hlen Hsz.
  assert (Erows : map (split_byte 9) (map drop_cr (raw_lines content)) =
                  map (fun l => [drop_cr l]) (raw_lines content)).
  { rewrite map_map. apply map_ext_in. intros l Hl. apply no_tab_fields.
    intros Hc. apply Hnt. apply drop_cr_in in Hc. eapply raw_lines_in; eauto. }
  apply open_tsv_accept with (ls := raw_lines content); auto.
  - apply raw_lines_Lines.
  - rewrite <- Erows. apply rows_RowOf.
  - rewrite zlen_map.
    assert (G : forall c ls, Lines c ls -> zlen ls <= zlen c).
    { induction 1.
      - rewrite !zlen_nil. lia.
      - destruct l; [congruence|]. rewrite !zlen_cons. rewrite zlen_nil. pose proof (zlen_nonneg _ l). lia.
      - rewrite zlen_app, !zlen_cons. pose proof (zlen_nonneg _ l). lia. }
    pose proof (G _ _ (raw_lines_Lines content)). lia.
  - left. intros c Hc. rewrite width_one; [lia| |auto].
    apply Forall_map. apply Forall_forall. intros; reflexivity.
Qed.
