(** * P_lost: C107 — the compound files of which a stream cannot be had. *)
From Verif Require Import GoBase GoUnicode L_base M_grate S_grate L_grate P_grate M_slicereader M_cfb S_cfb L_cfb P_cfb S_cfbsays P_cfbsays P_cfbopens S_which.
From Coq Require Import Lia ZifyBool ZifyNat.

Definition good_sector (d : document) (sz s : Z) : Prop := ~ end_mark s /\ place sz s <= zlen (dat (d_data d)) /\ inside (sl_full (d_data d)) sz s.
Lemma idx_err : forall A (l : list A) i e, idx l i <> Err e.
Proof. intros. unfold idx. destruct (0 <=? i); [|discriminate]. destruct (nth_error _ _); discriminate. Qed.
Lemma set_err : forall A (l : list A) i x e, set_idx l i x <> Err e.
Proof. intros. unfold set_idx. destruct (_ && _); discriminate. Qed.
Lemma range_err : forall s a b e, sl_range s a b <> Err e.
Proof. intros. unfold sl_range. destruct (_ && _ && _); discriminate. Qed.
Lemma substr_err : forall A (l : list A) a b e, substr l a b <> Err e.
Proof. intros. unfold substr. destruct (_ && _ && _); discriminate. Qed.
Lemma dir_err : forall x e, dir_string x <> Err e.
Proof.
  intros x e H. unfold dir_string in H. destruct (_ || _); [discriminate|]. destruct (substr (de_name x) _ _) as [u| | |] eqn:E; cbn [bind] in H; try discriminate; [|elim (substr_err _ _ _ _ _ E)]. cbv zeta in H.
  destruct (substr (utf16_decode u) _ _) eqn:E2; cbn [bind] in H; try discriminate. elim (substr_err _ _ _ _ _ E2).
Qed.
Lemma root_err : forall fuel d a b x sd e, root_loop fuel d a b x sd <> Err e.
Proof.
  induction fuel as [|fuel IH]; intros d a b x sd e H; cbn [root_loop] in H; destruct (is_end a); try discriminate. cbv zeta in H.
  destruct (sl_range _ _ _) as [sl| | |] eqn:E1; cbn [bind] in H; try discriminate; [|elim (range_err _ _ _ _ E1)].
  destruct (if _ <? _ then _ else _) as [[sl2 b2]| | |] eqn:E2 in H; cbn [bind] in H; try discriminate.
  - destruct (set_idx _ _ _) eqn:E3; cbn [bind] in H; try discriminate; [|elim (set_err _ _ _ _ _ E3)]. destruct (idx _ _) eqn:E4; cbn [bind] in H; try discriminate; [|elim (idx_err _ _ _ _ E4)]. elim (IH _ _ _ _ _ _ H).
  - destruct (_ <? _); [|discriminate]. destruct (sl_to _ _) eqn:E3; cbn [bind] in E2; try discriminate. elim (range_err _ _ _ _ E3).
Qed.
Lemma mini_err : forall fuel d fsd a b x sd e, mini_loop fuel d fsd a b x sd <> Err e.
Proof.
  induction fuel as [|fuel IH]; intros d fsd a b x sd e H; cbn [mini_loop] in H; destruct (is_end a); try discriminate. cbv zeta in H.
  destruct (idx fsd _) eqn:E0; cbn [bind] in H; try discriminate; [|elim (idx_err _ _ _ _ E0)]. destruct (sl_range _ _ _) as [sl| | |] eqn:E1; cbn [bind] in H; try discriminate; [|elim (range_err _ _ _ _ E1)].
  destruct (if _ <? _ then _ else _) as [out b2] in H. destruct (set_idx _ _ _) eqn:E3; cbn [bind] in H; try discriminate; [|elim (set_err _ _ _ _ _ E3)]. destruct (idx (d_minifat d) _) eqn:E4; cbn [bind] in H; try discriminate; [|elim (idx_err _ _ _ _ E4)]. elim (IH _ _ _ _ _ _ _ H).
Qed.
Lemma mini_reader_err : forall fuel d a b e, get_mini_stream_reader fuel d a b <> Err e.
Proof.
  intros fuel d a b e H. unfold get_mini_stream_reader in H. cbv zeta in H. destruct (root_loop _ _ _ _ _ _) eqn:E; cbn [bind] in H; try discriminate; [|elim (root_err _ _ _ _ _ _ _ E)]. destruct (mini_loop _ _ _ _ _ _ _) eqn:E2; cbn [bind] in H; try discriminate. elim (mini_err _ _ _ _ _ _ _ _ E2).
Qed.

(** ** the loop over the sectors of a big stream *)
Definition ends_short (r : res (Z * list bytes)) : Prop := match r with Ok (n, _) => n <> 0 | Err _ => True | _ => False end.
Lemma reader_short : forall fuel d start size, (exists e, get_stream_reader fuel d start size = Err e) <-> ends_short (stream_loop fuel d start size 0 (repeat [] (Z.to_nat (1 + size / sec_size d)))).
Proof.
  intros. unfold get_stream_reader. cbv zeta. destruct (stream_loop _ _ _ _ _ _) as [[n sd]|e| |]; cbn [bind ends_short].
  - destruct (Z.eqb_spec n 0); cbn [negb]; (split; [intros (err & H)|intros H]); try discriminate H; try contradiction; eauto.
  - split; eauto.
  - split; [intros (e & [=])|intros []].
  - split; [intros (e & [=])|intros []].
Qed.
Lemma short_says : forall d sz, 2 ^ h_shift (d_header d) = sz -> 0 < sz -> Forall (Z.le 0) (d_fat d) ->
  forall fuel sid size x sd, 0 <= sid -> 0 < size -> ends_short (stream_loop fuel d sid size x sd) ->
  exists l s, walk (d_fat d) (l ++ [s]) /\ hd s l = sid /\ zlen l * sz < size /\ Forall (good_sector d sz) l /\ (end_mark s \/ zlen (dat (d_data d)) < place sz s).
Proof.
  intros d sz P Z NN. assert (STOP : forall sid size, 0 <= sid -> 0 < size -> end_mark sid \/ zlen (dat (d_data d)) < place sz sid ->
    exists l s, walk (d_fat d) (l ++ [s]) /\ hd s l = sid /\ zlen l * sz < size /\ Forall (good_sector d sz) l /\ (end_mark s \/ zlen (dat (d_data d)) < place sz s)).
  { intros sid size S0 SP Q. exists [], sid. rewrite zlen_nil. cbn [app walk hd]. split; [exact S0|]. split; [reflexivity|]. split; [lia|]. split; [constructor|exact Q]. }
  induction fuel as [|fuel IH]; intros sid size x sd S0 SP H; cbn [stream_loop] in H; (destruct (is_end sid) eqn:IE; [apply STOP; auto; left; apply end_mark_is; exact IE|]); [destruct H|].
  assert (NE : ~ end_mark sid) by (intros Q; apply end_mark_is in Q; congruence). cbv zeta in H.
  rewrite (sec_off_place _ _ _ P) in H. unfold sec_size in H. rewrite P in H. unfold sl_len at 1 in H. destruct (Z.ltb_spec (zlen (dat (d_data d))) (place sz sid)) as [|PL]; [apply STOP; auto|].
  destruct (sl_range _ _ _) as [sl| | |] eqn:E; cbn [bind ends_short] in H; try contradiction; [|elim (range_err _ _ _ _ E)]. destruct (range_block _ _ _ _ Z E) as (I & DB & LB & _). unfold sl_len in H. rewrite LB in H.
  destruct (Z.ltb_spec size sz) as [LT|GE].
  - destruct (set_idx _ _ _) as [sd1| | |] eqn:E2; [|elim (set_err _ _ _ _ _ E2)|destruct H..]. change (0 =? 0) with true in H. cbn [bind ends_short] in H. elim H. reflexivity.
  - destruct (set_idx _ _ _) as [sd1| | |] eqn:E2; cbn [bind ends_short] in H; try contradiction; [|elim (set_err _ _ _ _ _ E2)]. destruct (Z.eqb_spec (size - sz) 0) as [Q0|Q0]; [cbn [ends_short] in H; contradiction|].
    destruct (idx (d_fat d) sid) as [t| | |] eqn:E3; cbn [bind ends_short] in H; try contradiction; [|elim (idx_err _ _ _ _ E3)]. destruct (idx_at _ _ _ _ E3) as [_ NT].
    assert (T0 : 0 <= t) by (rewrite Forall_forall in NN; apply NN; eapply nth_error_In; exact NT).
    apply IH in H; [|exact T0|lia]. destruct H as (l & s & W & HD & B & F & Q). exists (sid :: l), s. rewrite zlen_cons. split; [|split; [reflexivity|]; split; [nia|]; split; [constructor; [split; auto|exact F]|exact Q]].
    destruct l as [|a l]; cbn [app walk hd] in *; subst; auto.
Qed.
Lemma short_fwd : forall d sz, 2 ^ h_shift (d_header d) = sz -> 0 < sz ->
  forall l s fuel size done m, walk (d_fat d) (l ++ [s]) -> zlen l * sz < size -> Forall (good_sector d sz) l -> end_mark s \/ zlen (dat (d_data d)) < place sz s ->
  (List.length l < fuel)%nat -> (List.length l <= m)%nat -> ends_short (stream_loop fuel d (hd s l) size (zlen done) (done ++ repeat [] m)).
Proof.
  intros d sz P Z. induction l as [|a l IH]; intros s fuel size done m W B F Q FU M; (destruct fuel as [|fuel]; [cbn [List.length] in FU; lia|]); cbn [stream_loop hd].
  - rewrite zlen_nil in B. destruct (is_end s) eqn:IE; [cbn [ends_short]; lia|]. destruct Q as [Q|Q]; [apply end_mark_is in Q; congruence|]. rewrite (sec_off_place _ _ _ P). unfold sl_len at 1. destruct (Z.ltb_spec (zlen (dat (d_data d))) (place sz s)); [exact I|lia].
  - assert (C : 0 <= a /\ nth_error (d_fat d) (Z.to_nat a) = Some (hd s l) /\ walk (d_fat d) (l ++ [s])) by (destruct l as [|b l]; cbn [app walk hd] in *; tauto). destruct C as (S0 & NT & C).
    destruct m as [|m]; [cbn [List.length] in M; lia|]. pose proof (Forall_inv F) as (NE & PL & I). pose proof (Forall_inv_tail F) as F2.
    assert (IE : is_end a = false) by (destruct (is_end a) eqn:IE; [apply end_mark_is in IE; contradiction|reflexivity]). rewrite IE. rewrite (sec_off_place _ _ _ P). unfold sec_size. rewrite P. unfold sl_len at 1. destruct (Z.ltb_spec (zlen (dat (d_data d))) (place sz a)); [lia|].
    pose proof (place_nonneg sz a Z) as PN. unfold inside in I. rewrite sl_range_ok by lia. cbn [bind]. unfold sl_len. cbn [dat]. replace (place sz a + sz - place sz a) with sz by lia. fold (block (sl_full (d_data d)) sz a). rewrite (block_len _ _ _ Z I). cbn [repeat].
    rewrite zlen_cons in B. pose proof (zlen_nonneg _ l). destruct (Z.ltb_spec size sz); [nia|]. rewrite set_idx_at by reflexivity. cbn [bind]. destruct (Z.eqb_spec (size - sz) 0); [nia|]. rewrite (idx_nth _ _ _ _ S0 NT). cbn [bind]. cbn [List.length] in FU, M.
    pose proof (IH s fuel (size - sz) (done ++ [block (sl_full (d_data d)) sz a]) m C ltac:(nia) F2 Q ltac:(lia) ltac:(lia)) as E. rewrite zlen_app, zlen_cons, zlen_nil, <- app_assoc in E. exact E.
Qed.

(** ** the directory *)
Lemma open_err : forall fuel d data name es err, u64 (h_cutoff (d_header d)) = 4096 -> Forall is_entry es ->
  open_loop fuel d name (map (read_dirent (field data 26 2)) es) = Err err ->
  find (fun e => e_named name e && (e_type e =? 2)) es = None /\ Forall readable es \/
  exists a e b, es = a ++ e :: b /\ find (fun e => e_named name e && (e_type e =? 2)) es = Some e /\ find (fun e => e_named name e && (e_type e =? 2)) a = None /\ Forall readable (a ++ [e]) /\ is_entry e /\
    4096 <= e_size data e /\ get_stream_reader fuel d (e_start e) (e_size data e) = Err err.
Proof.
  intros fuel d data name es err C F. induction F as [|e es IE F IH]; intros H; cbn [map open_loop find] in *; [left; auto|].
  destruct (dir_string _) as [s| | |] eqn:E; cbn [bind] in H; try discriminate; [|elim (dir_err _ _ E)]. rewrite (named_says _ _ _ name IE E) in H. destruct (dirent_fields (field data 26 2) e IE) as (D1 & D2 & D3 & _). rewrite D1, C, D2, D3 in H. fold (e_size data e) in H. change typeStream with 2 in H.
  assert (R : readable e) by (apply (readable_string (field data 26 2)); eauto).
  destruct (e_named name e && (e_type e =? 2)) eqn:N.
  - right. destruct (Z.ltb_spec (e_size data e) 4096); [elim (mini_reader_err _ _ _ _ _ H)|]. destruct (Z.eqb_spec (e_size data e) 0); [lia|]. cbn [negb] in H. exists [], e, es. repeat (split; [reflexivity|]). split; [constructor; [exact R|constructor]|]. auto.
  - destruct (IH H) as [[A1 A2]|(a & e2 & b & -> & A & A2 & A3 & A4)]; [left; split; [exact A1|constructor; assumption]|]. right. exists (e :: a), e2, b. cbn [find app]. rewrite N. split; [reflexivity|]. split; [exact A|]. split; [exact A2|]. split; [constructor; assumption|exact A4].
Qed.
Lemma open_none : forall fuel d data name es, Forall is_entry es -> find (fun e => e_named name e && (e_type e =? 2)) es = None -> Forall readable es ->
  open_loop fuel d name (map (read_dirent (field data 26 2)) es) = Err EStreamNotFound.
Proof.
  intros fuel d data name es F. induction F as [|e es IE F IH]; intros N R; cbn [map open_loop find] in *; [reflexivity|]. pose proof (Forall_inv R) as R1. apply Forall_inv_tail in R.
  destruct (proj1 (readable_string (field data 26 2) _ IE) R1) as (s & ES). rewrite ES. cbn [bind]. rewrite (named_says _ _ _ name IE ES). destruct (dirent_fields (field data 26 2) _ IE) as (D1 & _). rewrite D1. change typeStream with 2. destruct (e_named name e && (e_type e =? 2)); [discriminate|]. auto.
Qed.

(** Which files are taken for compound files and yet have no stream of a name: asking for it is an
    error exactly if the tables are all there, and no entry has the name or the chain of its big
    stream is lost.  (A small stream that is lost ends the program.) *)
Theorem C107_lost : forall data sp name, bytes_ok data ->
  (exists fuel d e, load fuel (mkSl data sp) = Ok d /\ doc_open fuel d name = Err e) <-> stream_lost data (data ++ sp) name.
Proof.
  intros data sp name B. split.
  - intros (fuel & d & err & L & O). split; [exact (accepted_header _ _ _ _ B L)|]. destruct (load_tables _ _ _ _ B L) as (DD & []). destruct tb_fat as (fats & FS & FT). exists fats, (d_minifat d). split; [exact FS|]. split; [exact tb_minifat|]. destruct tb_size as [SZ1 SZ2]. set (sz := sector_size data) in *. assert (SP : 0 < sz) by lia.
    unfold doc_open in O. rewrite tb_dir in O. apply open_err in O; [|exact tb_cutoff|apply entries_ok, bytes_ok_zdrop, B]. destruct O as [O|(a & e & b & E1 & E2 & E3 & E4 & (_ & BE & _) & E5 & E6)]; [left; exact O|right].
    split; [exists a, e, b; auto|]. exists e. split; [exact E2|]. split; [exact E5|]. pose proof (proj1 (reader_short fuel d (e_start e) (e_size data e)) (ex_intro _ _ E6)) as H.
    apply (short_says d sz tb_shift SP ltac:(rewrite FT; apply table_nonneg; exact B)) in H; [|unfold e_start; apply field_bound; [exact BE|lia]|lia]. destruct H as (l & s & W & HD & LT & F & Q). rewrite FT in W. unfold good_sector in F. rewrite DD in F, Q. cbn [dat sl_full] in F, Q.
    exists l, s. split; [exact W|]. split; [exact HD|]. split; [exact LT|]. split; [exact F|exact Q].
  - intros (A & fats & mini & FS & MT & Q). destruct (load_opens data sp B A fats mini FS MT) as (N & d & LD). destruct (load_tables N data sp d B (LD N (le_n N))) as (DD & []). destruct tb_fat as (fats2 & FS2 & FT). destruct tb_size as [SZ1 SZ2]. set (sz := sector_size data) in *. assert (SP : 0 < sz) by lia.
    assert (FF : fats2 = fats). { destruct FS as (_ & x1 & -> & X1). destruct FS2 as (_ & x2 & -> & X2). f_equal. destruct (0 <? _); [eapply more_fats_fun; eassumption|congruence]. } subst fats2.
    pose proof (entries_ok 4 _ (bytes_ok_zdrop _ (place sz (field data 48 4)) B)) as EO. change (Forall is_entry (directory_of data)) in EO.
    destruct Q as [(SE & RD)|((a & e & b & DE & SE & FA & RD) & e2 & SE2 & BG & l & s & W & HD & LT & F & Q)].
    + exists N, d, EStreamNotFound. split; [apply LD; lia|]. unfold doc_open. rewrite tb_dir. apply open_none; auto.
    + rewrite SE in SE2. injection SE2 as <-. assert (NM : e_named name e && (e_type e =? 2) = true) by (unfold stream_entry in SE; apply find_some in SE; apply SE).
      set (K := Nat.max N (S (List.length l))). assert (R : ends_short (stream_loop K d (e_start e) (e_size data e) 0 (repeat [] (Z.to_nat (1 + e_size data e / sec_size d))))).
      { rewrite <- HD. change 0 with (zlen (@nil bytes)) at 1. change (repeat ?x ?n) with ([] ++ repeat x n). rewrite SZ1. apply (short_fwd d sz tb_shift SP); [rewrite FT; exact W|exact LT| | |lia|].
        - unfold good_sector. rewrite DD. exact F.
        - rewrite DD. exact Q.
        - assert (zlen l <= e_size data e / sz) by (apply Z.div_le_lower_bound; lia). unfold zlen in *. lia. }
      apply reader_short in R. destruct R as (err & R). exists K, d, err. split; [apply LD; lia|]. unfold doc_open. rewrite tb_dir, DE. rewrite open_fwd; auto; [|rewrite <- DE; exact EO]. destruct (Z.ltb_spec (e_size data e) 4096); [lia|exact R].
Qed.
Print Assumptions C107_lost.
