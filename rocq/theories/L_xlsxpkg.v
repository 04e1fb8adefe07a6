(** * L_xlsxpkg: part names, relationships, workbook, styles and shared strings. *)
From Verif Require Import GoBase L_base GoPath GoFloat GoUnicode GoTime M_grate M_value M_dates M_fmt M_formats M_cell M_sheet M_xls M_xlsx S_cell S_sheet L_sheet S_grid L_grid S_xls L_xls S_xlsx L_xlsxref L_xlsx.
From Verif Require L_simple.
From Coq Require Import Lia ZifyBool ZifyNat Permutation.

(** ** part names *)
Lemma seg_step : forall rt kept s, seg_ok s -> clean_step rt kept s = s :: kept.
Proof.
  intros rt kept s (N1 & N2 & N3 & _). unfold clean_step. rewrite !(proj2 (str_eqb_neq _ _)); auto.
Qed.
Lemma segs_steps : forall rt l kept, Forall seg_ok l -> fold_left (clean_step rt) l kept = rev l ++ kept.
Proof.
  induction l as [|s l IH]; intros kept F; [reflexivity|]. inversion F; subst. cbn [fold_left rev]. rewrite seg_step by auto. rewrite IH by auto. rewrite <- app_assoc. reflexivity.
Qed.
Lemma dots_steps : forall n kept, Forall seg_ok kept -> (n <= List.length kept)%nat -> fold_left (clean_step false) (repeat dotdot n) kept = skipn n kept.
Proof.
  induction n as [|n IH]; intros kept F L; [reflexivity|]. destruct kept as [|s kept]; [cbn in L; lia|]. inversion F as [|? ? (N1 & N2 & N3 & _) F2]; subst. cbn [repeat fold_left skipn]. unfold clean_step at 2.
  change (str_eqb dotdot [] || str_eqb dotdot dot) with false. change (str_eqb dotdot dotdot) with true. cbn iota. rewrite (proj2 (str_eqb_neq s dotdot)) by auto. apply IH; auto. cbn in L. lia.
Qed.
Lemma path_cons : forall s l, l <> [] -> path (s :: l) = s ++ 47 :: path l.
Proof. intros s l N. unfold path. cbn [join]. destruct l; [congruence|reflexivity]. Qed.
Lemma path_app : forall a b, a <> [] -> b <> [] -> path (a ++ b) = path a ++ 47 :: path b.
Proof.
  induction a as [|s a IH]; intros b Na Nb; [congruence|]. cbn [app]. destruct a as [|s' a].
  - cbn [app]. rewrite path_cons by auto. reflexivity.
  - rewrite !path_cons by (cbn; discriminate). rewrite IH by (auto; discriminate). rewrite <- app_assoc. reflexivity.
Qed.
Lemma path_ne : forall l, l <> [] -> Forall seg_ok l -> exists c t, path l = c :: t /\ c <> 47.
Proof.
  intros [|s l] N F; [congruence|]. inversion F as [|? ? (N1 & _ & _ & NI) _]; subst. destruct s as [|c s]; [congruence|].
  assert (c <> 47) by (intros ->; apply NI; left; reflexivity). destruct l as [|s' l]; [exists c, s; auto|]. rewrite path_cons by discriminate. cbn [app]. exists c. eexists. split; [reflexivity|auto].
Qed.
(** cleaning a relative path given by its segments *)
Lemma clean_path : forall l out c t, path l = c :: t -> c <> 47 -> Forall (fun s => ~ In 47 s) l -> l <> [] -> fold_left (clean_step false) l [] = rev out -> out <> [] -> Forall seg_ok out -> path_clean (path l) = path out.
Proof.
  intros l out c t E Nc F N FO NO OK. assert (S : split_byte 47 (path l) = l) by (apply L_simple.split_join; auto). unfold path_clean. rewrite E. cbv zeta. change slash with 47. rewrite (proj2 (Z.eqb_neq c 47)) by auto. rewrite <- E, S, FO, rev_involutive. cbn [app].
  fold (path out). destruct (path_ne out NO OK) as (c' & t' & -> & _). reflexivity.
Qed.
Lemma segs_noslash : forall l, Forall seg_ok l -> Forall (fun s => ~ In 47 s) l.
Proof. intros l F. eapply Forall_impl; [|exact F]. intros s (_ & _ & _ & H). exact H. Qed.
(** the directory of a part with a trailing slash *)
Definition subdir (dir : list gostr) : gostr := match dir with [] => [] | _ => path dir ++ [47] end.
Lemma subdir_join : forall dir l, dir <> [] -> l <> [] -> join [47] (subdir dir :: l) = path (dir ++ [] :: l).
Proof.
  intros dir l Nd Nl. unfold subdir. destruct dir as [|s dir]; [congruence|]. set (D := s :: dir) in *. fold (path ((path D ++ [47]) :: l)). rewrite path_cons by auto.
  rewrite path_app by (auto; discriminate). rewrite (path_cons [] l) by auto. rewrite <- app_assoc. reflexivity.
Qed.
Lemma join_dir : forall dir l out, Forall seg_ok dir -> l <> [] -> Forall (fun s => ~ In 47 s) l -> (exists c t, path l = c :: t /\ c <> 47) ->
  fold_left (clean_step false) l (rev dir) = rev out -> out <> [] -> Forall seg_ok out -> path_join (subdir dir :: l) = path out.
Proof.
  intros dir l out FD Nl Fl (c & t & El & Nc) FO NO OK.
  destruct dir as [|s dir]; [|set (D := s :: dir) in *].
  - unfold subdir. cbn [path_join]. assert (J : path_join l = path_clean (join [47] l)).
    { destruct l as [|[|x y] l]; [congruence| |reflexivity]. destruct l as [|z l]; [discriminate|]. rewrite path_cons in El by discriminate. cbn [app] in El. congruence. }
    rewrite J. eapply clean_path; eauto.
  - assert (J : path_join (subdir D :: l) = path_clean (join [47] (subdir D :: l))).
    { destruct (path_ne D) as (c' & t' & E & _); [discriminate|auto|]. unfold subdir. subst D. rewrite E. reflexivity. }
    rewrite J, subdir_join by (auto; unfold D; discriminate). destruct (path_ne D) as (c' & t' & E & Nc'); [unfold D; discriminate|auto|].
    eapply (clean_path _ out c'); auto.
    + rewrite path_app by (unfold D; discriminate). rewrite E. reflexivity.
    + apply Forall_app. split; [apply segs_noslash; auto|]. constructor; [intros []|exact Fl].
    + discriminate.
    + rewrite fold_left_app. rewrite (segs_steps false D []) by auto. rewrite app_nil_r. exact FO.
Qed.
Lemma rels_seg : seg_ok (bs "_rels").
Proof. repeat split; try discriminate. vm_compute. intuition discriminate. Qed.
Lemma dot_rels_seg : forall b, seg_ok b -> seg_ok (b ++ bs ".rels").
Proof.
  intros b (N1 & N2 & N3 & N4).
  assert (L : forall x, b ++ bs ".rels" = x -> zlen x < 6 -> b = []).
  { intros x <- H. rewrite zlen_app in H. change (zlen (bs ".rels")) with 5 in H. destruct b; [reflexivity|]. rewrite zlen_cons in H. pose proof (zlen_nonneg _ b). lia. }
  repeat split.
  - intros E. apply app_eq_nil in E as [E _]. congruence.
  - intros E. apply N1, (L _ E). reflexivity.
  - intros E. apply N1, (L _ E). reflexivity.
  - intros I. apply in_app_or in I. destruct I as [I|I]; [contradiction|vm_compute in I; intuition discriminate].
Qed.
Lemma rels_join : forall dir base, Forall seg_ok dir -> seg_ok base -> path_join [subdir dir; bs "_rels"; base ++ bs ".rels"] = rels_part dir base.
Proof.
  intros dir base FD OB. pose proof rels_seg. pose proof (dot_rels_seg base OB). unfold rels_part. apply join_dir; auto.
  - discriminate.
  - apply segs_noslash. auto.
  - apply path_ne; [discriminate|auto].
  - rewrite segs_steps by auto. rewrite rev_app_distr. reflexivity.
  - destruct dir; discriminate.
  - apply Forall_app. auto.
Qed.
Lemma target_join : forall dir n s, Forall seg_ok dir -> s <> [] -> Forall seg_ok s -> (n <= List.length dir)%nat ->
  path_join [subdir dir; path (repeat dotdot n ++ s)] = path (firstn (List.length dir - n) dir ++ s).
Proof.
  intros dir n s FD Ns Fs L.
  assert (FDD : forall k, Forall (fun s => ~ In 47 s) (repeat dotdot k)) by (intros k; apply Forall_forall; intros x Hx; apply repeat_spec in Hx; subst; vm_compute; intuition discriminate).
  assert (PN : exists c t, path (repeat dotdot n ++ s) = c :: t /\ c <> 47).
  { destruct n as [|n]; [cbn [repeat app]; apply path_ne; auto|]. cbn [repeat app]. rewrite path_cons by (destruct n; [exact Ns|discriminate]). cbn [dotdot app]. exists 46. eexists. split; [reflexivity|discriminate]. }
  assert (J : path_join [subdir dir; path (repeat dotdot n ++ s)] = path_join (subdir dir :: repeat dotdot n ++ s)).
  { destruct PN as (c & t & E & _). assert (H : hd [] (repeat dotdot n ++ s) <> []).
    { destruct n; [|discriminate]. cbn [repeat app]. destruct Fs as [|y s (X & _) _]; [congruence|exact X]. }
    revert E H. generalize (repeat dotdot n ++ s). clear n s Ns Fs L. intros l E H. destruct dir as [|d dir].
    - unfold subdir. cbn [path_join]. rewrite E. cbn [join]. rewrite <- E. destruct l as [|[|x y] l']; [elim H; reflexivity|elim H; reflexivity|reflexivity].
    - unfold subdir. destruct (path_ne (d :: dir)) as (c' & t' & E' & _); [discriminate|auto|]. rewrite E'. cbn [app path_join join]. destruct l; [elim H; reflexivity|]. reflexivity. }
  rewrite J. apply join_dir; auto.
  - destruct n; [exact Ns|discriminate].
  - apply Forall_app. split; [apply FDD|apply segs_noslash; auto].
  - rewrite fold_left_app, dots_steps by (try apply Forall_rev; auto; rewrite rev_length; auto). rewrite segs_steps by auto. rewrite rev_app_distr.
    f_equal. rewrite <- (rev_involutive dir) at 3. rewrite firstn_rev. rewrite rev_involutive. f_equal. rewrite rev_length. lia.
  - destruct (firstn (List.length dir - n) dir); [exact Ns|discriminate].
  - apply Forall_app. split; [|exact Fs]. apply Forall_forall. intros x Hx. rewrite Forall_forall in FD. apply FD. rewrite <- (firstn_skipn (List.length dir - n) dir). apply in_or_app. left. exact Hx.
Qed.
Lemma path_subdir : forall dir base, path (dir ++ [base]) = subdir dir ++ base.
Proof. intros dir base. destruct dir as [|s dir]; [reflexivity|]. unfold subdir. rewrite path_app by discriminate. rewrite <- app_assoc. reflexivity. Qed.
Lemma last_index_none : forall set l i best, Forall (fun c => existsb (Z.eqb c) set = false) l -> last_index_from (fun c => existsb (Z.eqb c) set) i best l = best.
Proof. induction l as [|c l IH]; intros i best F; [reflexivity|]. inversion F as [|? ? H ?]; subst. cbn [last_index_from]. rewrite H. apply IH. auto. Qed.
Lemma last_index_app : forall p a b i best, last_index_from p i best (a ++ b) = last_index_from p (i + zlen a) (last_index_from p i best a) b.
Proof.
  induction a as [|c a IH]; intros b i best; cbn [app last_index_from].
  - change (zlen (@nil Z)) with 0. f_equal. lia.
  - rewrite IH, zlen_cons. f_equal. lia.
Qed.
Lemma base_part : forall dir base, Forall seg_ok dir -> seg_ok base -> path_base (path (dir ++ [base])) = base.
Proof.
  intros dir base FD (N1 & _ & _ & NI). rewrite path_subdir. unfold path_base.
  assert (E : subdir dir ++ base <> []) by (intros E; apply app_eq_nil in E as [_ E]; congruence).
  destruct (subdir dir ++ base) as [|c0 t0] eqn:E0; [congruence|]. rewrite <- E0. clear E c0 t0 E0.
  assert (T : rev (trim_left (Z.eqb slash) (rev (subdir dir ++ base))) = subdir dir ++ base).
  { rewrite rev_app_distr. destruct (rev base) as [|c t] eqn:ER; [apply (f_equal (@rev Z)) in ER; rewrite rev_involutive in ER; cbn in ER; congruence|].
    assert (c <> 47). { intros ->. apply NI. apply in_rev. rewrite ER. left. reflexivity. }
    cbn [app trim_left]. change slash with 47. rewrite (proj2 (Z.eqb_neq 47 c)) by auto. rewrite app_comm_cons, rev_app_distr, rev_involutive, <- ER, rev_involutive. reflexivity. }
  cbv zeta. rewrite T. assert (L : last_index_any [slash] (subdir dir ++ base) = zlen (subdir dir) - 1).
  { unfold last_index_any. rewrite last_index_app, last_index_none.
    - destruct dir as [|s dir]; [reflexivity|]. unfold subdir. rewrite last_index_app, zlen_app. cbn [last_index_from existsb]. change (47 =? slash) with true. cbn [orb]. change (zlen [47]) with 1. lia.
    - apply Forall_forall. intros x Hx. cbn [existsb]. rewrite (proj2 (Z.eqb_neq x slash)); [reflexivity|]. intros ->. contradiction. }
  rewrite L. replace (zlen (subdir dir) - 1 + 1) with (zlen (subdir dir)) by lia. rewrite zdrop_app_exact. destruct base; [congruence|reflexivity].
Qed.
Lemma trim_part : forall dir base, trim_suffix (path (dir ++ [base])) base = subdir dir.
Proof.
  intros. rewrite path_subdir. unfold trim_suffix. rewrite zlen_app. replace (zlen (subdir dir) + zlen base - zlen base) with (zlen (subdir dir)) by lia.
  pose proof (zlen_nonneg _ (subdir dir)). rewrite (proj2 (Z.leb_le _ _)) by auto. rewrite zdrop_app_exact, str_eqb_refl. cbn [andb]. apply ztake_app_exact.
Qed.

(** ** relationships *)
Definition rel_file (dir : list gostr) (r : xrel) : gostr := match rl_target r with 47 :: rest => rest | _ => path_join [subdir dir; rl_target r] end.
Lemma rel_target : forall dir r t, Forall seg_ok dir -> rl_target r = target_text t -> target_ok dir t -> rel_file dir r = target_part dir t.
Proof.
  intros dir r t FD E O. unfold rel_file. rewrite E. destruct t as [s|n s]; cbn [target_text target_part target_ok] in *; [reflexivity|]. destruct O as (N & F & L). change [46; 46] with dotdot in *.
  rewrite <- target_join by auto. assert (P : exists c t, path (repeat dotdot n ++ s) = c :: t /\ c <> 47).
  { destruct n as [|n]; [cbn [repeat app]; apply path_ne; auto|]. cbn [repeat app]. rewrite path_cons by (destruct n; [exact N|discriminate]). cbn [dotdot app]. exists 46. eexists. split; [reflexivity|discriminate]. }
  destruct P as (c & u & -> & Nc). destruct c as [|p|p]; try reflexivity. do 6 (destruct p; try reflexivity). congruence.
Qed.
Definition set_rels (d : xdoc) (prim : gostr) (R : xrels) : xdoc := mkXDoc (xd_zip d) prim R (xd_sheets d) (xd_strings d) (xd_xfs d) (xd_fmt d).
Lemma map_get_has : forall a key v, has_attr a key v -> map_get a (bs key) = v.
Proof. intros. unfold map_get. rewrite (map_has _ _ _ H). reflexivity. Qed.
Lemma rel_elem_ok : forall dir d a r, is_rel a r ->
  rel_elem (subdir dir) d a = set_rels d (if of_type "officeDocument" r then rl_target r else xd_primary d) (sput (rl_type r) (sput (rl_id r) (rel_file dir r) (rels_of (xd_rels d) (rl_type r))) (xd_rels d)).
Proof.
  intros dir d a r (H1 & H2 & H3). unfold rel_elem. rewrite (map_get_has _ _ _ H1), (map_get_has _ _ _ H2), (map_get_has _ _ _ H3). reflexivity.
Qed.
Lemma rels_loop_elements : forall base l d, rels_loop base l d = fold_left (rel_elem base) (elements "Relationship" l) d.
Proof. induction l as [|t l IH]; intros d; [reflexivity|]. destruct t as [n a|n|c|]; cbn [rels_loop elements flat_map app]; fold (elements "Relationship" l); [|apply IH..]. destruct (str_eqb n (bs "Relationship")); cbn [app fold_left]; apply IH. Qed.
Lemma rels_of_sput : forall R ty m ty', rels_of (sput ty m R) ty' = if str_eqb ty ty' then m else rels_of R ty'.
Proof. intros. unfold rels_of, sput. cbn [sfind]. rewrite str_eqb_sym. destruct (str_eqb ty ty'); reflexivity. Qed.
Definition typed_rels (dir : list gostr) (ty : gostr) (rs : list xrel) : list (gostr * gostr) := map (fun r => (rl_id r, rel_file dir r)) (filter (fun r => str_eqb (rl_type r) ty) rs).
Lemma rels_fold : forall dir l rs d, Forall2 is_rel l rs -> Forall (fun q => of_type "officeDocument" q = false) rs ->
  exists R, fold_left (rel_elem (subdir dir)) l d = set_rels d (xd_primary d) R /\ forall ty, rels_of R ty = rev (typed_rels dir ty rs) ++ rels_of (xd_rels d) ty.
Proof.
  intros dir l rs d F. revert d. induction F as [|a r l rs H F IH]; intros d N.
  - exists (xd_rels d). split; [destruct d; reflexivity|]. reflexivity.
  - inversion N as [|? ? N1 N2]; subst. cbn [fold_left]. rewrite (rel_elem_ok dir d a r H), N1. destruct (IH (set_rels d (xd_primary d) (sput (rl_type r) (sput (rl_id r) (rel_file dir r) (rels_of (xd_rels d) (rl_type r))) (xd_rels d))) N2) as (R & E & HR).
    exists R. split; [exact E|]. intros ty. rewrite HR. cbn [set_rels xd_rels]. rewrite rels_of_sput. unfold typed_rels. cbn [filter]. destruct (str_eqb (rl_type r) ty) eqn:T; [|reflexivity].
    apply str_eqb_eq in T. subst. cbn [map rev]. rewrite <- app_assoc. reflexivity.
Qed.
Lemma sfind_nodup : forall A (m : list (gostr * A)) k v, NoDup (map fst m) -> In (k, v) m -> sfind k m = Some v.
Proof.
  induction m as [|[k' v'] m IH]; intros k v N I; [destruct I|]. cbn [map fst] in N. inversion N as [|? ? N1 N2]; subst. cbn [sfind]. destruct I as [E|I].
  - injection E as -> ->. rewrite str_eqb_refl. reflexivity.
  - destruct (str_eqb k k') eqn:E; [|apply IH; auto]. apply str_eqb_eq in E. subst. elim N1. apply in_map_iff. exists (k', v). auto.
Qed.
Lemma typed_nodup : forall dir ty rs, NoDup (map rl_id rs) -> NoDup (map fst (rev (typed_rels dir ty rs))).
Proof.
  intros. rewrite map_rev. apply NoDup_rev. unfold typed_rels. rewrite map_map. cbn [fst]. induction rs as [|r rs IH]; [constructor|]. cbn [map] in H. inversion H as [|? ? N1 N2]; subst. cbn [filter]. destruct (str_eqb (rl_type r) ty); auto.
  cbn [map]. constructor; auto. intros I. apply N1. apply in_map_iff in I. destruct I as (q & E & I). apply filter_In in I as [I _]. apply in_map_iff. exists q. auto.
Qed.
Lemma order1 : forall (order : list gostr -> list gostr), (forall l, Permutation l (order l)) -> order [] = [] /\ forall x, order [x] = [x].
Proof. intros order H. split; [apply Permutation_nil, H|]. intros x. apply Permutation_length_1_inv, H. Qed.

(** ** workbook part *)
Lemma workbook_elements : forall l sheets d, Forall2 (fun a s => has_attr a "name" (fst s) /\ has_attr a "id" (snd s)) (elements "sheet" l) sheets ->
  workbook_loop l d = Ok (with_sheets d (xd_sheets d ++ map (fun s => mkXSh (snd s) (fst s) (match sfind (snd s) (rels_of (xd_rels d) rel_sheet) with Some f => f | None => [] end) None None) sheets)).
Proof.
  induction l as [|t l IH]; intros sheets d F.
  - inversion F; subst. cbn [workbook_loop map]. rewrite app_nil_r. destruct d; reflexivity.
  - destruct t as [n a|n|c|]; cbn [workbook_loop elements flat_map app] in *; fold (elements "sheet" l) in F; [|apply IH; exact F..].
    destruct (str_eqb n (bs "sheet")); cbn [app] in F; [|apply IH; exact F]. inversion F as [|? s ? sheets' [H1 H2] F2]; subst.
    rewrite (map_has _ _ _ H1), (map_has _ _ _ H2). rewrite (IH _ _ F2). unfold with_sheets. cbn [xd_zip xd_primary xd_rels xd_sheets xd_strings xd_xfs xd_fmt map]. rewrite <- app_assoc. reflexivity.
Qed.

(** ** shared strings *)
Definition chars (l : list xtok) : gostr := flat_map (fun t => match t with XChars c => c | _ => [] end) l.
Lemma sst_skip : forall l m val acc, between l -> sst_loop (l ++ m) val acc = sst_loop m (val ++ chars l) acc.
Proof.
  induction l as [|t l IH]; intros m val acc F; [cbn; rewrite app_nil_r; reflexivity|]. inversion F as [|? ? H F2]; subst. unfold chars. cbn [app sst_loop flat_map]. fold (chars l). destruct t as [n a|n|c|].
  - rewrite (proj2 (str_eqb_neq n (bs "si"))) by auto. apply IH. auto.
  - rewrite (proj2 (str_eqb_neq n (bs "si"))) by auto. apply IH. auto.
  - rewrite IH by auto. rewrite app_assoc. reflexivity.
  - apply IH. auto.
Qed.
Lemma chars_app : forall a b, chars (a ++ b) = chars a ++ chars b.
Proof. intros. apply flat_map_app. Qed.
Lemma chars_texts : forall t, chars (map XChars t) = concat t.
Proof. induction t as [|x t IH]; [reflexivity|]. cbn. rewrite <- IH. reflexivity. Qed.
Lemma chars_quiet : forall l, quiet l -> chars l = [].
Proof. induction l as [|x l IH]; intros F; [reflexivity|]. inversion F; subst. cbn. destruct x; try contradiction; apply IH; auto. Qed.
Lemma between_app : forall a b, between a -> between b -> between (a ++ b).
Proof. intros. apply Forall_app. auto. Qed.
Lemma between_texts : forall t, between (map XChars t).
Proof. intros. apply Forall_forall. intros x Hx. apply in_map_iff in Hx. destruct Hx as (y & <- & _). exact I. Qed.
Lemma quiet_between : forall l, quiet l -> between l.
Proof. intros l F. eapply Forall_impl; [|exact F]. intros [n a|n|t|]; auto. Qed.
Lemma t_between : forall a t, between (t_toks a t).
Proof. intros. unfold t_toks. constructor; [discriminate|]. apply between_app; [apply between_texts|]. constructor; [discriminate|constructor]. Qed.
Lemma t_chars : forall a t, chars (t_toks a t) = concat t.
Proof. intros. unfold t_toks. change (chars (XStart (bs "t") a :: map XChars t ++ [XEnd (bs "t")])) with (chars (map XChars t ++ [XEnd (bs "t")])). rewrite chars_app, chars_texts. apply app_nil_r. Qed.
Lemma spart_between : forall p, spart_ok p -> between (spart_toks p).
Proof.
  intros [a t|props a t|b a t|t] O; cbn [spart_toks spart_ok] in *.
  - apply t_between.
  - constructor; [discriminate|]. apply between_app; [apply quiet_between; auto|]. apply between_app; [apply t_between|]. constructor; [discriminate|constructor].
  - constructor; [discriminate|]. apply between_app; [apply t_between|]. constructor; [discriminate|constructor].
  - constructor; [exact I|constructor].
Qed.
(** all character data of an item, also phonetic hints and white space *)
Definition spart_all (p : spart) : gostr := match p with SpText _ t | SpRun _ _ t | SpPhonetic _ _ t => concat t | SpSpace t => t end.
Definition item_all (i : list spart) : gostr := concat (map spart_all i).
Lemma spart_chars : forall p, spart_ok p -> chars (spart_toks p) = spart_all p.
Proof.
  intros [a t|props a t|b a t|t] O; cbn [spart_toks spart_ok spart_all] in *.
  - apply t_chars.
  - change (chars (XStart (bs "r") [] :: ?l)) with (chars l). cbn [chars flat_map app]. fold (chars (props ++ t_toks a t ++ [XEnd (bs "r")])). rewrite !chars_app, (chars_quiet props O), t_chars. cbn. apply app_nil_r.
  - cbn [chars flat_map app]. fold (chars (t_toks a t ++ [XEnd (bs "rPh")])). rewrite !chars_app, t_chars. cbn. apply app_nil_r.
  - cbn. apply app_nil_r.
Qed.
Lemma item_between : forall i, Forall spart_ok i -> between (flat_map spart_toks i) /\ chars (flat_map spart_toks i) = item_all i.
Proof.
  induction i as [|p i IH]; intros F; [split; [constructor|reflexivity]|]. inversion F; subst. destruct IH as [B C]; auto. cbn [flat_map]. split; [apply between_app; [apply spart_between; auto|exact B]|].
  rewrite chars_app, C, spart_chars by auto. reflexivity.
Qed.
Lemma sst_items : forall items val acc, Forall (fun i => Forall spart_ok (fst i) /\ between (snd i)) items ->
  sst_loop (flat_map (fun i => XStart (bs "si") [] :: flat_map spart_toks (fst i) ++ XEnd (bs "si") :: snd i) items) val acc = acc ++ map (fun i => item_all (fst i)) items.
Proof.
  induction items as [|i items IH]; intros val acc F; [cbn; rewrite app_nil_r; reflexivity|]. inversion F as [|? ? [O1 O2] F2]; subst. cbn [flat_map app map]. destruct (item_between _ O1) as [B C].
  cbn [sst_loop]. change (str_eqb (bs "si") (bs "si")) with true. cbn iota. rewrite <- !app_assoc, sst_skip by exact B. rewrite C. cbn [app sst_loop]. change (str_eqb (bs "si") (bs "si")) with true. cbn iota. rewrite sst_skip by exact O2.
  rewrite IH by auto. rewrite <- app_assoc. reflexivity.
Qed.
Lemma sst_table : forall pre items acc, between pre -> Forall (fun i => Forall spart_ok (fst i) /\ between (snd i)) items ->
  sst_loop (sst_toks pre items) [] acc = acc ++ map (fun i => item_all (fst i)) items.
Proof. intros. unfold sst_toks. rewrite sst_skip by auto. apply sst_items. auto. Qed.
Lemma plain_all : forall i, plain_item i -> Forall spart_ok i /\ item_all i = item_text i.
Proof.
  induction i as [|p i IH]; intros F; [split; [constructor|reflexivity]|]. inversion F as [|? ? [O P] F2]; subst. destruct (IH F2) as [A B]. split; [constructor; auto|].
  unfold item_all, item_text in *. cbn [map concat]. rewrite B. destruct p; try contradiction; reflexivity.
Qed.

(** ** styles *)
Lemma styles_app : forall a b st, styles_loop (a ++ b) st = (st <- styles_loop a st ;; styles_loop b st).
Proof. induction a as [|t a IH]; intros b st; [reflexivity|]. destruct t as [n x|n|c|]; cbn [app styles_loop]; try apply IH. destruct (style_start st n x); cbn [bind]; auto. Qed.
Lemma style_other : forall l st, Forall (other style_names) l -> styles_loop l st = Ok st.
Proof.
  induction l as [|t l IH]; intros st F; [reflexivity|]. inversion F as [|? ? H F2]; subst. destruct t as [n x|n|c|]; cbn [styles_loop other] in *; auto.
  - unfold style_start. rewrite !(not_name n style_names) by (auto; vm_compute; tauto). cbn [bind]. auto.
  - unfold style_end. rewrite !(not_name n style_names) by (auto; vm_compute; tauto). cbn [orb]. auto.
Qed.
Lemma parse_utoa16 : forall n, 0 <= n < 32768 -> parse_int 16 (utoa n) = (n, PNone).
Proof. intros n H. assert (E : utoa n = itoa n) by (unfold itoa; destruct (Z.ltb_spec n 0); [lia|reflexivity]). rewrite E. apply parse_int_itoa; [lia|change (2 ^ (16 - 1)) with 32768; lia]. Qed.
Lemma base_xfs : forall l st, Forall (fun x : list xattr * list xtok => Forall (other style_names) (snd x)) l -> sy_section st = 1 ->
  exists b, styles_loop (flat_map (fun x => XStart (bs "xf") (fst x) :: snd x ++ [XEnd (bs "xf")]) l) st = Ok (mkSty b 1 (sy_xfs st) (sy_fmt st)).
Proof.
  induction l as [|x l IH]; intros st F S; [exists (sy_base st); destruct st; cbn in *; subst; reflexivity|]. inversion F as [|? ? H F2]; subst. cbn [flat_map app]. cbn [styles_loop].
  unfold style_start. change (str_eqb (bs "xf") (bs "numFmt")) with false. change (str_eqb (bs "xf") (bs "cellStyleXfs")) with false. change (str_eqb (bs "xf") (bs "cellXfs")) with false. change (str_eqb (bs "xf") (bs "xf")) with true. cbn iota.
  unfold style_xf. rewrite S. change (1 =? 1) with true. cbn [bind]. rewrite <- app_assoc, styles_app, style_other by auto. cbn [bind app styles_loop]. unfold style_end. change (str_eqb (bs "xf") (bs "cellStyleXfs")) with false. change (str_eqb (bs "xf") (bs "cellXfs")) with false. cbn [orb].
  edestruct IH as (b & E); [exact F2| |exists b; rewrite E; reflexivity]. reflexivity.
Qed.
Lemma cell_xfs : forall l st, Forall xfe_ok l -> sy_section st = 2 ->
  styles_loop (flat_map (fun x => XStart (bs "xf") (xf_attrs x) :: xf_rest x ++ [XEnd (bs "xf")]) l) st = Ok (mkSty (sy_base st) 2 (sy_xfs st ++ map xfe_format l) (sy_fmt st)).
Proof.
  induction l as [|x l IH]; intros st F S; [cbn [flat_map map styles_loop]; rewrite app_nil_r; destruct st; cbn in *; subst; reflexivity|]. inversion F as [|? ? (H1 & H2 & H3 & H4 & H5 & H6) F2]; subst. cbn [flat_map app]. cbn [styles_loop].
  unfold style_start. change (str_eqb (bs "xf") (bs "numFmt")) with false. change (str_eqb (bs "xf") (bs "cellStyleXfs")) with false. change (str_eqb (bs "xf") (bs "cellXfs")) with false. change (str_eqb (bs "xf") (bs "xf")) with true. cbn iota.
  unfold style_xf. rewrite S. change (2 =? 1) with false. change (2 =? 2) with true. cbn iota. rewrite (int_attr_opt _ _ _ H4 H5), (get_has _ _ _ H1), (get_opt _ _ _ H3).
  assert (B : exists y, (if match xf_base x with Some s => s | None => 0 end <? zlen (sy_base st) then idx (sy_base st) (match xf_base x with Some s => s | None => 0 end) else Ok []) = Ok y).
  { set (b := match xf_base x with Some s => s | None => 0 end). assert (0 <= b) by (unfold b; destruct (xf_base x); [specialize (H5 _ eq_refl)|]; lia). destruct (Z.ltb_spec b (zlen (sy_base st))); [|exists []; reflexivity]. exists (nth (Z.to_nat b) (sy_base st) []). apply idx_ok; [auto|]. apply nth_error_nth'. unfold zlen in *. lia. }
  destruct B as (y & ->). cbn [bind].
  assert (V : u16 (int_attr 16 (if str_eqb (match xf_apply x with Some v => v | None => [] end) (bs "0") then bs "0" else utoa (xf_id x))) = xfe_format x).
  { unfold xfe_format. assert (I : u16 (int_attr 16 (utoa (xf_id x))) = xf_id x) by (unfold int_attr; rewrite parse_utoa16 by auto; unfold u16; cbn [fst]; rewrite Z.mod_small; lia).
    destruct (xf_apply x) as [v|]; [|exact I]. destruct (str_eqb v (bs "0")) eqn:E; [apply str_eqb_eq in E; subst; reflexivity|].
    apply str_eqb_neq in E. change (bs "0") with [48] in E. destruct v as [|c [|c' v]]; try exact I; destruct c as [|p|p]; try exact I; do 6 (destruct p; try exact I); congruence. }
  rewrite V. rewrite <- app_assoc, styles_app, style_other by auto. cbn [bind app styles_loop]. unfold style_end. change (str_eqb (bs "xf") (bs "cellStyleXfs")) with false. change (str_eqb (bs "xf") (bs "cellXfs")) with false. cbn [orb].
  rewrite IH by auto. cbn [sy_base sy_xfs sy_fmt map]. rewrite <- app_assoc. reflexivity.
Qed.
Lemma style_pieces : forall l st, Forall spiece_ok l -> sy_section st = 0 ->
  exists b, styles_loop (style_toks l) st = Ok (mkSty b 0 (style_xfs l (sy_xfs st)) (fold_left (fun x f => fst (fx_add x (fst f) (snd f))) (style_formats l) (sy_fmt st))).
Proof.
  induction l as [|p l IH]; intros st F S; [exists (sy_base st); destruct st; cbn in *; subst; reflexivity|]. inversion F as [|? ? O F2]; subst. unfold style_toks. cbn [flat_map]. fold (style_toks l). rewrite styles_app.
  destruct p as [t|a id code|a bl|a n pre xl]; cbn [spiece_toks spiece_ok style_xfs] in *; unfold style_formats; cbn [flat_map app]; fold (style_formats l).
  - rewrite (style_other [t] st) by (constructor; auto). cbn [bind]. apply IH; auto.
  - destruct O as (H1 & H2 & H3). cbn [styles_loop]. unfold style_start. change (str_eqb (bs "numFmt") (bs "numFmt")) with true. cbn iota. rewrite (get_has _ _ _ H1), (get_has _ _ _ H2). unfold int_attr. rewrite parse_utoa16 by auto. cbn [fst].
    assert (U : u16 id = id) by (unfold u16; rewrite Z.mod_small; lia). rewrite U. cbn [bind]. unfold style_end. change (str_eqb (bs "numFmt") (bs "cellStyleXfs")) with false. change (str_eqb (bs "numFmt") (bs "cellXfs")) with false. cbn [orb].
    edestruct IH as (b & E); [exact F2| |exists b; rewrite E; reflexivity]. exact S.
  - cbn [styles_loop]. unfold style_start. change (str_eqb (bs "cellStyleXfs") (bs "numFmt")) with false. change (str_eqb (bs "cellStyleXfs") (bs "cellStyleXfs")) with true. cbn iota. cbn [bind]. rewrite styles_app.
    destruct (base_xfs bl (mkSty (sy_base st) 1 (sy_xfs st) (sy_fmt st)) O eq_refl) as (b & E). rewrite E. cbn [bind styles_loop]. unfold style_end. change (str_eqb (bs "cellStyleXfs") (bs "cellStyleXfs")) with true. cbn [orb bind].
    edestruct IH as (b2 & E2); [exact F2| |exists b2; rewrite E2; reflexivity]. reflexivity.
  - destruct O as (H1 & H2 & H3 & H4). cbn [styles_loop]. unfold style_start. change (str_eqb (bs "cellXfs") (bs "numFmt")) with false. change (str_eqb (bs "cellXfs") (bs "cellStyleXfs")) with false. change (str_eqb (bs "cellXfs") (bs "cellXfs")) with true. cbn iota.
    rewrite (int_attr_opt _ _ _ H1) by (intros k Hk; specialize (H2 k Hk); change (2 ^ 63) with 9223372036854775808; change (2 ^ 47) with 140737488355328 in H2; lia).
    set (k := match n with Some k => k | None => 0 end). assert (K : 0 <= k <= 2 ^ 47) by (unfold k; destruct n; [apply H2; reflexivity|change (2 ^ 47) with 140737488355328; lia]). change (2 ^ 47) with 140737488355328 in K.
    replace ((k <? 0) || (2 ^ 48 <? 2 * k)) with false by (change (2 ^ 48) with 281474976710656; lia). cbn [bind]. rewrite !styles_app, style_other by auto. cbn [bind]. rewrite styles_app, cell_xfs by auto. cbn [bind sy_base sy_xfs sy_fmt app styles_loop].
    unfold style_end. change (str_eqb (bs "cellXfs") (bs "cellXfs")) with true. change (str_eqb (bs "cellXfs") (bs "cellStyleXfs")) with false. cbn [orb bind].
    edestruct IH as (b2 & E2); [exact F2| |exists b2; rewrite E2; reflexivity]. reflexivity.
Qed.
Lemma style_xfs_fit : forall l xfs, Forall spiece_ok l -> Forall w16 xfs -> Forall w16 (style_xfs l xfs).
Proof.
  induction l as [|p l IH]; intros xfs F W; [exact W|]. inversion F as [|? ? O F2]; subst. destruct p; cbn [style_xfs]; apply IH; auto. cbn [spiece_ok] in O. destruct O as (_ & _ & _ & O). apply Forall_forall. intros y Hy. apply in_map_iff in Hy. destruct Hy as (x & <- & Hx).
  rewrite Forall_forall in O. destruct (O x Hx) as (_ & B & _). unfold xfe_format, w16. assert (0 <= xf_id x < 65536) by lia. destruct (xf_apply x) as [v|]; [|lia]. destruct v as [|c [|c' v]]; try lia; destruct c as [|q|q]; try lia; do 6 (destruct q; try lia).
Qed.

(** ** the whole package *)
Definition pkg_formats (k : xpkg) : formatter := fold_left (fun x f => fst (fx_add x (fst f) (snd f))) (style_formats (pk_styles k)) new_formatter.
Definition pkg_xfs (k : xpkg) : list Z := style_xfs (pk_styles k) [].
Lemma of_type_rel : forall ty rs, filter (fun r => str_eqb (rl_type r) (rel_uri ty)) rs = filter (of_type ty) rs.
Proof. reflexivity. Qed.
Lemma no_types : forall dir ty rs, Forall (fun q => of_type ty q = false) rs -> typed_rels dir (rel_uri ty) rs = [].
Proof. intros dir ty rs F. unfold typed_rels. rewrite of_type_rel. induction F as [|q rs H F IH]; [reflexivity|]. cbn [filter]. rewrite H. exact IH. Qed.
Lemma sfind_absent : forall (m : list (gostr * gostr)) k, (forall v, ~ In (k, v) m) -> sfind k m = None.
Proof.
  induction m as [|[a v] m IH]; intros k H; [reflexivity|]. cbn [sfind]. destruct (str_eqb k a) eqn:E; [apply str_eqb_eq in E; subst; elim (H v); left; reflexivity|]. apply IH. intros w I. apply (H w). right. exact I.
Qed.
Lemma open_package : forall order z k, (forall l, Permutation l (order l)) -> package z k ->
  exists d, open_doc order z = Ok d /\ xd_zip d = z /\ xd_strings d = pkg_strings k /\ xd_xfs d = pkg_xfs k /\ xd_fmt d = pkg_formats k /\ Forall w16 (pkg_xfs k) /\
    Forall2 (fun s h => xh_name h = fst s /\ xh_err h = None /\ xh_wrapped h = None /\ (forall part, sheet_part k (snd s) part -> xh_doc h = part) /\ ((forall q, In q (pk_rels k) -> rl_id q = snd s -> of_type "worksheet" q = false) -> xh_doc h = [])) (pk_sheets k) (xd_sheets d).
Proof.
  intros order z k HO (FD & FB & (l0 & a0 & a & a1' & r & r0 & r1 & P0 & E0 & RA & OA & TA & F0 & F1 & FN) & (l1 & P1 & FR) & ND & NO & (l2 & P2 & FS) & ST & SS).
  apply Forall_app in FN as [FN0 FN1]. destruct (order1 order HO) as [O0 O1].
  assert (NT : forall ty rs, In ty ["officeDocument"; "worksheet"; "styles"; "sharedStrings"]%string -> Forall (fun q => forall ty, In ty ["officeDocument"; "worksheet"; "styles"; "sharedStrings"]%string -> of_type ty q = false) rs -> Forall (fun q => of_type ty q = false) rs).
  { intros ty rs I F. eapply Forall_impl; [|exact F]. cbn. auto. }
  unfold open_doc. unfold part_is in P0. rewrite P0. unfold parse_rels. cbn [xm_toks xm_end end_err]. rewrite rels_loop_elements, E0, fold_left_app. change (rel_elem []) with (rel_elem (subdir [])). cbn [fold_left].
  destruct (rels_fold [] a0 r0 (new_xdoc z) F0) as (R0 & -> & HR0); [apply NT; auto; left; reflexivity|]. rewrite (rel_elem_ok [] _ a r RA), OA.
  destruct (rels_fold [] a1' r1 (set_rels (set_rels (new_xdoc z) (xd_primary (new_xdoc z)) R0) (rl_target r) (sput (rl_type r) (sput (rl_id r) (rel_file [] r) (rels_of R0 (rl_type r))) R0)) F1) as (R1 & EQ1 & HR1); [apply NT; auto; left; reflexivity|].
  cbn [set_rels xd_rels xd_primary xd_zip xd_sheets xd_strings xd_xfs xd_fmt] in *. rewrite EQ1. unfold set_rels. cbn [xd_zip xd_primary xd_rels xd_sheets xd_strings xd_xfs xd_fmt new_xdoc].
  rewrite TA. assert (NEP : path (pk_dir k ++ [pk_base k]) <> []) by (destruct (path_ne (pk_dir k ++ [pk_base k])) as (c & t & -> & _); [destruct (pk_dir k); discriminate|apply Forall_app; auto|discriminate]).
  destruct (path (pk_dir k ++ [pk_base k])) as [|c0 t0] eqn:EP; [congruence|]. rewrite <- EP. rewrite base_part, trim_part, rels_join by auto. unfold part_is in P1. rewrite P1. cbn [need xm_toks xm_end end_err].
  rewrite rels_loop_elements. match goal with |- context [fold_left (rel_elem _) _ ?D] => destruct (rels_fold (pk_dir k) (elements "Relationship" l1) (pk_rels k) D FR NO) as (R2 & EQ2 & HR2) end. rewrite EQ2. unfold set_rels. cbn [xd_zip xd_primary xd_rels xd_sheets xd_strings xd_xfs xd_fmt] in *.
  assert (T1 : forall ty, In ty ["worksheet"; "styles"; "sharedStrings"]%string -> rels_of R2 (rel_uri ty) = rev (typed_rels (pk_dir k) (rel_uri ty) (pk_rels k))).
  { intros ty Hty. assert (In ty ["officeDocument"; "worksheet"; "styles"; "sharedStrings"]%string) by (right; exact Hty).
    assert (NE : str_eqb (rl_type r) (rel_uri ty) = false).
    { unfold of_type in OA. apply str_eqb_eq in OA. rewrite OA. cbn [In] in Hty. destruct Hty as [<-|[<-|[<-|[]]]]; vm_compute; reflexivity. }
    rewrite HR2, HR1, rels_of_sput, NE, HR0, (no_types [] ty r0), (no_types [] ty r1) by (apply NT; auto). cbn [rev app new_xdoc xd_rels]. change (rels_of [] (rel_uri ty)) with (@nil (gostr * gostr)). apply app_nil_r. }
  unfold part_is in P2. first [rewrite P2|rewrite EP, P2|rewrite <- EP, P2]. cbn [need]. unfold parse_workbook. cbn [xm_toks xm_end end_err]. rewrite (workbook_elements _ _ _ FS). cbn [bind]. unfold with_sheets. cbn [xd_zip xd_primary xd_rels xd_sheets xd_strings xd_xfs xd_fmt app].
  change rel_styles with (rel_uri "styles"). change rel_strings with (rel_uri "sharedStrings"). change rel_sheet with (rel_uri "worksheet"). rewrite !T1 by (cbn; tauto).
  set (sheets := map _ (pk_sheets k)).
  assert (SH : Forall2 (fun s h => xh_name h = fst s /\ xh_err h = None /\ xh_wrapped h = None /\ (forall part, sheet_part k (snd s) part -> xh_doc h = part) /\ ((forall q, In q (pk_rels k) -> rl_id q = snd s -> of_type "worksheet" q = false) -> xh_doc h = [])) (pk_sheets k) sheets).
  { unfold sheets. clear FS sheets. induction (pk_sheets k) as [|s l IH]; [constructor|]. cbn [map]. constructor; [|exact IH]. cbn [xh_name xh_err xh_wrapped xh_doc]. split; [reflexivity|]. split; [reflexivity|]. split; [reflexivity|]. split.
    2: { intros NW. rewrite (sfind_absent _ (snd s)); [reflexivity|]. intros v I. apply in_rev in I. unfold typed_rels in I. apply in_map_iff in I. destruct I as (q & EQ & I). apply filter_In in I. destruct I as [I T]. injection EQ as E1 _. specialize (NW q I E1). unfold of_type in NW. congruence. }
    intros part (q & t & I & T & ID & TT & TO & ->). rewrite (sfind_nodup _ _ (snd s) (target_part (pk_dir k) t)); [reflexivity|apply typed_nodup; exact ND|].
    apply -> in_rev. unfold typed_rels. apply in_map_iff. exists q. split; [rewrite ID, (rel_target _ _ _ FD TT TO); reflexivity|]. apply filter_In. auto. }
  (* styles *)
  assert (STY : exists d1, parse_parts parse_styles (order (live_values [] (rev (typed_rels (pk_dir k) (rel_uri "styles") (pk_rels k))))) (mkXDoc z (path (pk_dir k ++ [pk_base k])) R2 sheets [] [] new_formatter) = Ok d1 /\
     d1 = mkXDoc z (path (pk_dir k ++ [pk_base k])) R2 sheets [] (pkg_xfs k) (pkg_formats k) /\ Forall w16 (pkg_xfs k)).
  { unfold typed_rels. rewrite of_type_rel. unfold single_part in ST. destruct (filter (of_type "styles") (pk_rels k)) as [|q [|q' ?]]; [| |contradiction].
    - cbn [map rev live_values]. rewrite O0. eexists. split; [reflexivity|]. unfold pkg_xfs, pkg_formats. rewrite ST. split; [reflexivity|constructor].
    - destruct ST as (t & l & TT & TO & PS & EL & FO). cbn [map rev app live_values existsb]. rewrite O1. cbn [parse_parts xd_zip]. rewrite (rel_target _ _ _ FD TT TO). unfold part_is in PS. rewrite PS. cbn [need]. unfold parse_styles. cbn [xm_toks xm_end end_err xd_fmt].
      subst l. destruct (style_pieces (pk_styles k) (mkSty [] 0 [] new_formatter) FO eq_refl) as (b & E). rewrite E. cbn [bind sy_xfs sy_fmt]. eexists. split; [reflexivity|]. split; [reflexivity|]. apply style_xfs_fit; [exact FO|constructor]. }
  destruct STY as (d1 & ES & ED & W). rewrite <- EP. rewrite ES. cbn [bind]. subst d1. cbn [xd_rels]. rewrite T1 by (cbn; tauto).
  unfold typed_rels. rewrite of_type_rel. unfold single_part in SS. destruct (filter (of_type "sharedStrings") (pk_rels k)) as [|q [|q' ?]]; [| |contradiction].
  - cbn [map rev live_values]. rewrite O0. eexists. split; [reflexivity|]. cbn [xd_zip xd_strings xd_xfs xd_fmt xd_sheets]. unfold pkg_strings. rewrite SS. cbn [map]. auto 10.
  - destruct SS as (t & l & TT & TO & PS & pre & EL & BP & FO). cbn [map rev app live_values existsb]. rewrite O1. cbn [parse_parts xd_zip]. rewrite (rel_target _ _ _ FD TT TO). unfold part_is in PS. rewrite PS. cbn [need]. unfold parse_shared. cbn [xm_toks xm_end end_err xd_strings].
    subst l. rewrite sst_table; auto; [|eapply Forall_impl; [|exact FO]; intros i [Q1 Q2]; split; [apply plain_all; exact Q1|exact Q2]]. cbn [bind]. eexists. split; [reflexivity|]. cbn [xd_zip xd_strings xd_xfs xd_fmt xd_sheets app].
    assert (PSQ : map (fun i => item_all (fst i)) (pk_strings k) = pkg_strings k).
    { unfold pkg_strings. apply map_ext_in. intros i Hi. rewrite Forall_forall in FO. apply plain_all, (FO i Hi). }
    auto 10.
Qed.
