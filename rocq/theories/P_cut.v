(** * P_cut: property C101 — a workbook file that was cut off. *)
From Verif Require Import GoBase GoUnicode L_base M_grate S_grate L_grate P_grate M_simple M_slicereader S_slicereader P_slicereader
  M_cfb S_cfb L_cfb P_cfb M_biff S_biff M_xls S_xls M_xlsx P_xlstr S_open M_open P_open P_refuse.
From Coq Require Import Lia ZifyBool ZifyNat Permutation.

(** ** the statement *)
(** a storage entry of the root type can only be the first of the four directory entries that are
    read (the format wants exactly one, in the first place) *)
Definition root_first (data : bytes) : Prop :=
  forall i, 1 <= i <= 3 -> field data ((1 + field data 48 4) mod 4294967296 * 2 ^ field data 30 2 + 128 * i + 66) 1 <> 5.

(** ** what is read from a piece at the front of a file is read from the file *)
Lemma drop_app : forall (p q : bytes) a, a <= zlen p -> zdrop a (p ++ q) = zdrop a p ++ q.
Proof. intros. apply zdrop_app_le. assumption. Qed.
Lemma field_app : forall p q o n, 0 <= o -> 0 <= n -> o + n <= zlen p -> field (p ++ q) o n = field p o n.
Proof. intros p q o n Ho Hn H. unfold field. rewrite drop_app by lia. rewrite ztake_app_le; [reflexivity|]. rewrite zlen_zdrop; lia. Qed.
Lemma le32_app : forall l q v, le32 l = Ok v -> le32 (l ++ q) = Ok v.
Proof. intros [|a [|b [|c [|d l]]]] q v H; try discriminate. exact H. Qed.
Lemma le32_len : forall l v, le32 l = Ok v -> 4 <= zlen l.
Proof. intros [|a [|b [|c [|d l]]]] v H; try discriminate. rewrite !zlen_cons. pose proof (zlen_nonneg _ l). lia. Qed.
Lemma header_app : forall p q, 512 <= zlen p -> read_header (p ++ q) = read_header p.
Proof.
  intros p q L. unfold read_header. pose proof (zlen_nonneg _ q). rewrite zlen_app. destruct (Z.ltb_spec (zlen p + zlen q) 512); [lia|]. destruct (Z.ltb_spec (zlen p) 512); [lia|].
  rewrite !rd64_field, !rd16_field, !rd32_field by (rewrite ?zlen_app; lia). rewrite !field_app by lia. rewrite drop_app by lia. rewrite ztake_app_le by (rewrite zlen_zdrop; lia). f_equal.
  apply map_ext_in. intros i Hi. apply in_seq in Hi. rewrite !rd32_field by (rewrite ?zlen_app; lia). apply field_app; lia.
Qed.
Lemma entries_app : forall n l q acc r, read_entries n l acc = Ok r -> read_entries n (l ++ q) acc = Ok (fst r, snd r ++ q).
Proof.
  induction n as [|n IH]; intros l q acc r H; cbn [read_entries] in *; [injection H as <-; reflexivity|]. destruct (le32 l) as [v| | |] eqn:E; cbn [bind] in H; try discriminate. rewrite (le32_app _ q _ E). cbn [bind]. rewrite drop_app by (apply le32_len in E; lia). apply IH. exact H.
Qed.
Lemma from_app : forall p q spc sp a s, sl_from (mkSl p spc) a = Ok s -> exists s', sl_from (mkSl (p ++ q) sp) a = Ok s' /\ dat s' = dat s ++ q.
Proof.
  intros p q spc sp a s H. unfold sl_from, sl_len in *. cbn [dat spare] in *. pose proof (zlen_nonneg _ q). rewrite zlen_app. destruct (Z.leb_spec 0 a); [|discriminate]. destruct (Z.leb_spec a (zlen p)); [|discriminate]. cbn [andb] in *. injection H as <-.
  destruct (Z.leb_spec a (zlen p + zlen q)); [|lia]. cbn [andb]. eexists. split; [reflexivity|]. cbn [dat]. apply drop_app. lia.
Qed.
Ltac cut_step := match goal with
  | H : (bind ?x _) = Ok _ |- _ => let E := fresh "E" in destruct x eqn:E; cbn [bind] in H; try discriminate
  | H : (let '(_, _) := ?x in _) = Ok _ |- _ => destruct x
  end.
Section Cut.
  Variables p q spc sp : bytes.
  Let C := mkSl p spc.
  Let F := mkSl (p ++ q) sp.
  Lemma in_cut : forall a, (sl_len C <=? a) = false -> (sl_len F <=? a) = false.
  Proof. intros a. unfold sl_len, C, F. cbn [dat]. rewrite zlen_app. pose proof (zlen_nonneg _ q). lia. Qed.
  Lemma fat_cut : forall shift nent sids fat r, load_fat C shift nent sids fat = Ok r -> load_fat F shift nent sids fat = Ok r.
  Proof.
    intros shift nent sids. induction sids as [|sid sids IH]; intros fat r H; cbn [load_fat] in *; [exact H|]. destruct (sid =? secFree); [exact H|]. cbv zeta in *. destruct (sl_len C <=? sec_off shift sid) eqn:B; [discriminate|]. rewrite (in_cut _ B).
    destruct (sl_from C (sec_off shift sid)) as [s| | |] eqn:E; cbn [bind] in H; try discriminate. destruct (from_app p q spc sp _ _ E) as (s' & E' & D). unfold F at 1. rewrite E'. cbn [bind].
    destruct (read_entries nent (dat s) fat) as [[f rest]| | |] eqn:R; cbn [bind] in H; try discriminate. rewrite D, (entries_app _ _ q _ _ R). cbn [bind fst snd]. apply IH. exact H.
  Qed.
  Lemma difat_entries_cut : forall shift nent n l fat r, difat_entries C shift nent n l fat = Ok r -> difat_entries F shift nent n (l ++ q) fat = Ok (fst r, snd r ++ q).
  Proof.
    intros shift nent n. induction n as [|n IH]; intros l fat r H; cbn [difat_entries] in *; [injection H as <-; reflexivity|]. destruct (le32 l) as [v| | |] eqn:V; cbn [bind] in H; try discriminate. rewrite (le32_app _ q _ V). cbn [bind]. pose proof (le32_len _ _ V). rewrite drop_app by lia.
    destruct ((v =? secFree) || (v =? secEndOfChain)); [apply IH; exact H|]. cbv zeta in *. destruct (sl_len C <=? sec_off shift v) eqn:B; [discriminate|]. rewrite (in_cut _ B).
    destruct (sl_from C (sec_off shift v)) as [s| | |] eqn:E; cbn [bind] in H; try discriminate. destruct (from_app p q spc sp _ _ E) as (s' & E' & D). unfold F at 1. rewrite E'. cbn [bind].
    destruct (read_entries nent (dat s) fat) as [[f rest]| | |] eqn:R; cbn [bind] in H; try discriminate. rewrite D, (entries_app _ _ q _ _ R). cbn [bind fst snd]. apply IH. exact H.
  Qed.
  Lemma difat_cut : forall fuel shift nent sid fat r, difat_loop fuel C shift nent sid fat = Ok r -> difat_loop fuel F shift nent sid fat = Ok r.
  Proof.
    induction fuel as [|fuel IH]; intros shift nent sid fat r H; cbn [difat_loop] in *; [exact H|]. destruct (sid =? secEndOfChain); [exact H|].
    destruct (sl_from C (sec_off shift sid)) as [s| | |] eqn:E; cbn [bind] in H; try discriminate. destruct (from_app p q spc sp _ _ E) as (s' & E' & D). unfold F at 1. rewrite E'. cbn [bind].
    destruct (difat_entries C shift nent (nent - 1) (dat s) fat) as [[f rest]| | |] eqn:R; cbn [bind] in H; try discriminate. rewrite D, (difat_entries_cut _ _ _ _ _ _ R). cbn [bind fst snd].
    destruct (le32 rest) as [v| | |] eqn:V; cbn [bind] in H; try discriminate. rewrite (le32_app _ q _ V). cbn [bind]. apply IH. exact H.
  Qed.
  Lemma minifat_cut : forall fuel shift nent num sid fat r, minifat_loop fuel C shift nent num sid fat = Ok r -> minifat_loop fuel F shift nent num sid fat = Ok r.
  Proof.
    induction fuel as [|fuel IH]; intros shift nent num sid fat r H; cbn [minifat_loop] in *; [exact H|]. destruct (sid =? secEndOfChain); [exact H|]. cbv zeta in *. destruct (sl_len C <=? sec_off shift sid) eqn:B; [discriminate|]. rewrite (in_cut _ B).
    destruct (sl_from C (sec_off shift sid)) as [s| | |] eqn:E; cbn [bind] in H; try discriminate. destruct (from_app p q spc sp _ _ E) as (s' & E' & D). unfold F at 1. rewrite E'. cbn [bind].
    destruct (read_entries nent (dat s) fat) as [[f rest]| | |] eqn:R; cbn [bind] in H; try discriminate. rewrite D, (entries_app _ _ q _ _ R). cbn [bind fst snd]. destruct (num <=? zlen f); [exact H|].
    destruct (le32 rest) as [v| | |] eqn:V; cbn [bind] in H; try discriminate. rewrite (le32_app _ q _ V). cbn [bind]. apply IH. exact H.
  Qed.
End Cut.

(** ** the directory *)
Lemma dirent_app : forall major d q, 128 <= zlen d -> read_dirent major (d ++ q) = read_dirent major d.
Proof.
  intros major d q L. unfold read_dirent. pose proof (zlen_nonneg _ q). rewrite zlen_app. destruct (Z.ltb_spec (zlen d + zlen q) 128); [lia|]. destruct (Z.ltb_spec (zlen d) 128); [lia|].
  rewrite !rd64_field, !rd16_field, !rd32_field by (rewrite ?zlen_app; lia). rewrite !field_app by lia.
  replace (idx (d ++ q) 66) with (idx d 66) by (unfold idx; rewrite nth_error_app1 by (unfold zlen in *; lia); reflexivity). f_equal.
  apply map_ext_in. intros i Hi. apply in_seq in Hi. rewrite !rd16_field by (rewrite ?zlen_app; lia). apply field_app; lia.
Qed.
Definition no_root (n : nat) (major : Z) (d : bytes) : Prop := forall i, (i < n)%nat -> de_type (read_dirent major (zdrop (128 * Z.of_nat i) d)) <> 5.
Lemma no_root_tl : forall n major d, no_root (S n) major d -> no_root n major (zdrop 128 d).
Proof. intros n major d H i Hi. rewrite zdrop_zdrop by lia. replace (128 + 128 * Z.of_nat i) with (128 * Z.of_nat (S i)) by lia. apply H. lia. Qed.
Lemma dirs_no_root : forall n major d acc ms, no_root n major d -> exists extra, build_dirs n major d acc ms = (acc ++ extra, ms).
Proof.
  induction n as [|n IH]; intros major d acc ms H; cbn [build_dirs]; [exists []; rewrite app_nil_r; reflexivity|]. cbv zeta. destruct (_ =? typeUnknown); [exists []; rewrite app_nil_r; reflexivity|].
  pose proof (H O ltac:(lia)) as K. change (zdrop (128 * Z.of_nat 0) d) with d in K. unfold typeRootStorage. destruct (Z.eqb_spec (de_type (read_dirent major d)) 5); [contradiction|].
  destruct (IH major (zdrop 128 d) (acc ++ [read_dirent major d]) ms (no_root_tl _ _ _ H)) as (x & ->). exists (read_dirent major d :: x). rewrite <- app_assoc. reflexivity.
Qed.
Lemma dirs_cut_no_root : forall n major d q acc ms dir ms', build_dirs n major d acc ms = (dir, ms') -> no_root n major (d ++ q) ->
  exists extra, build_dirs n major (d ++ q) acc ms = (dir ++ extra, ms').
Proof.
  induction n as [|n IH]; intros major d q acc ms dir ms' E H. { cbn [build_dirs] in *. injection E as <- <-. exists []. rewrite app_nil_r. reflexivity. }
  destruct (Z.ltb_spec (zlen d) 128) as [S|S].
  { cbn [build_dirs] in E. unfold read_dirent in E at 1. destruct (Z.ltb_spec (zlen d) 128); [|lia]. cbn in E. injection E as <- <-. apply dirs_no_root. exact H. }
  cbn [build_dirs] in *. cbv zeta in *. rewrite (dirent_app _ _ _ S). destruct (_ =? typeUnknown); [injection E as <- <-; exists []; rewrite app_nil_r; reflexivity|].
  rewrite drop_app by lia. eapply IH; [exact E|]. rewrite <- drop_app by lia. apply no_root_tl. exact H.
Qed.
Lemma dirs_cut : forall n major d q dir ms', build_dirs (S n) major d [] (0, 0) = (dir, ms') -> dir <> [] -> no_root n major (zdrop 128 (d ++ q)) ->
  exists extra, build_dirs (S n) major (d ++ q) [] (0, 0) = (dir ++ extra, ms').
Proof.
  intros n major d q dir ms' E D H. destruct (Z.ltb_spec (zlen d) 128) as [S|S].
  { cbn [build_dirs] in E. unfold read_dirent in E at 1. destruct (Z.ltb_spec (zlen d) 128); [|lia]. cbn in E. injection E as <- <-. congruence. }
  cbn [build_dirs] in *. cbv zeta in *. rewrite (dirent_app _ _ _ S). destruct (_ =? typeUnknown); [injection E as <- <-; exists []; rewrite app_nil_r; reflexivity|].
  rewrite drop_app in H by lia. rewrite drop_app by lia. eapply dirs_cut_no_root; [exact E|exact H].
Qed.

(** ** the streams *)
Definition sl_ext (s s' : slice) : Prop := dat s' = dat s /\ exists t, sl_full s' = sl_full s ++ t.
Lemma range_ext : forall s s' a b r, (exists t, sl_full s' = sl_full s ++ t) -> sl_range s a b = Ok r -> exists r', sl_range s' a b = Ok r' /\ sl_ext r r'.
Proof.
  intros s s' a b r (t & E) H. unfold sl_range in *. rewrite E. pose proof (zlen_nonneg _ t). rewrite zlen_app. destruct (Z.leb_spec 0 a); [|discriminate]. destruct (Z.leb_spec a b); [|discriminate]. destruct (Z.leb_spec b (zlen (sl_full s))); [|discriminate]. cbn [andb] in *. injection H as <-.
  destruct (Z.leb_spec b (zlen (sl_full s) + zlen t)); [|lia]. eexists. split; [reflexivity|].
  assert (D : ztake (b - a) (zdrop a (sl_full s ++ t)) = ztake (b - a) (zdrop a (sl_full s))). { rewrite zdrop_app_le by lia. rewrite ztake_app_le; [reflexivity|]. rewrite zlen_zdrop; lia. }
  split; [exact D|]. exists t. set (f := sl_full s) in *. unfold sl_full. cbn [dat spare]. rewrite D, (zdrop_app_le _ b) by lia. apply app_assoc.
Qed.
Lemma idx_ext : forall l l' i (s : slice), Forall2 sl_ext l l' -> idx l i = Ok s -> exists s', idx l' i = Ok s' /\ sl_ext s s'.
Proof.
  intros l l' i s F H. unfold idx in *. destruct (0 <=? i); [|discriminate]. revert H. generalize (Z.to_nat i). clear i. induction F as [|x y l l' X F IH]; intros [|n] H; cbn [nth_error] in *; try discriminate; [injection H as <-; eauto|apply IH; exact H].
Qed.
Lemma set_ext : forall l l' i (s s' : slice) r, Forall2 sl_ext l l' -> sl_ext s s' -> set_idx l i s = Ok r -> exists r', set_idx l' i s' = Ok r' /\ Forall2 sl_ext r r'.
Proof.
  intros l l' i s s' r F X H. unfold set_idx in *. assert (L : zlen l' = zlen l) by (clear - F; induction F; rewrite ?zlen_cons; congruence). rewrite L. destruct (_ && _); [|discriminate]. injection H as <-. eexists. split; [reflexivity|].
  generalize (Z.to_nat i). clear i L. induction F as [|x y l l' E F IH]; intros [|n]; cbn [upd]; constructor; auto.
Qed.

Section Docs.
  Variables d d' : document.
  Hypothesis Ed : exists t, sl_full (d_data d') = sl_full (d_data d) ++ t.
  Hypothesis El : sl_len (d_data d) <= sl_len (d_data d').
  Hypothesis Eh : d_header d' = d_header d.
  Hypothesis Ef : d_fat d' = d_fat d.
  Hypothesis Em : d_minifat d' = d_minifat d.
  Hypothesis Es : d_msstart d' = d_msstart d.
  Hypothesis Ez : d_mssize d' = d_mssize d.
  Lemma stream_ext : forall fuel sid size x sd r, stream_loop fuel d sid size x sd = Ok r -> stream_loop fuel d' sid size x sd = Ok r.
  Proof.
    induction fuel as [|fuel IH]; intros sid size x sd r H; cbn [stream_loop] in *; [exact H|]. destruct (is_end sid); [exact H|]. unfold sec_size in *. rewrite Eh, Ef. cbv zeta in *.
    destruct (sl_len (d_data d) <? _) eqn:B; [discriminate|]. replace (sl_len (d_data d') <? sec_off (h_shift (d_header d)) sid) with false by lia.
    destruct (sl_range (d_data d) _ _) as [s| | |] eqn:E; cbn [bind] in H; try discriminate. destruct (range_ext _ _ _ _ _ Ed E) as (s' & -> & D & _). cbn [bind]. unfold sl_len in *. rewrite D.
    destruct (if size <? zlen (dat s) then _ else _) as [out sz]. destruct (set_idx sd x out) as [sd'| | |]; cbn [bind] in *; try discriminate. destruct (sz =? 0); [exact H|]. destruct (idx (d_fat d) sid) as [n| | |]; cbn [bind] in *; try discriminate. apply IH. exact H.
  Qed.
  Lemma root_ext : forall fuel fsid fsize x sd sd' r, Forall2 sl_ext sd sd' -> root_loop fuel d fsid fsize x sd = Ok r -> exists r', root_loop fuel d' fsid fsize x sd' = Ok r' /\ Forall2 sl_ext r r'.
  Proof.
    induction fuel as [|fuel IH]; intros fsid fsize x sd sd' r F H; cbn [root_loop] in *. { destruct (is_end fsid); [injection H as <-; eauto|discriminate]. } destruct (is_end fsid); [injection H as <-; eauto|]. unfold sec_size in *. rewrite Eh, Ef. cbv zeta in *.
    destruct (sl_range (d_data d) _ _) as [s| | |] eqn:E; cbn [bind] in H; try discriminate. destruct (range_ext _ _ _ _ _ Ed E) as (s' & -> & D & T). cbn [bind]. assert (L : sl_len s' = sl_len s) by (unfold sl_len; rewrite D; reflexivity). rewrite L.
    destruct (fsize <? sl_len s).
    - unfold sl_to in *. destruct (sl_range s 0 fsize) as [s2| | |] eqn:E2; cbn [bind] in H; try discriminate. destruct (range_ext _ _ _ _ _ T E2) as (s2' & -> & X). cbn [bind].
      destruct (set_idx sd x s2) as [sd2| | |] eqn:E3; cbn [bind] in H; try discriminate. destruct (set_ext _ _ _ _ _ _ F X E3) as (sd2' & -> & F'). cbn [bind]. destruct (idx (d_fat d) fsid) as [n| | |]; cbn [bind] in *; try discriminate. eapply IH; eassumption.
    - cbn [bind] in *. destruct (set_idx sd x s) as [sd2| | |] eqn:E3; cbn [bind] in H; try discriminate. destruct (set_ext _ _ _ _ _ _ F (conj D T) E3) as (sd2' & -> & F'). cbn [bind]. destruct (idx (d_fat d) fsid) as [n| | |]; cbn [bind] in *; try discriminate. eapply IH; eassumption.
  Qed.
  Lemma mini_ext : forall fuel fsd fsd' sid size x sd r, Forall2 sl_ext fsd fsd' -> mini_loop fuel d fsd sid size x sd = Ok r -> mini_loop fuel d' fsd' sid size x sd = Ok r.
  Proof.
    induction fuel as [|fuel IH]; intros fsd fsd' sid size x sd r F H; cbn [mini_loop] in *; [exact H|]. destruct (is_end sid); [exact H|]. unfold sec_size, mini_size in *. rewrite Eh, Em. cbv zeta in *.
    destruct (idx fsd _) as [s| | |] eqn:E; cbn [bind] in H; try discriminate. destruct (idx_ext _ _ _ _ F E) as (s' & -> & D & T). cbn [bind].
    destruct (sl_range s _ _) as [s2| | |] eqn:E2; cbn [bind] in H; try discriminate. destruct (range_ext _ _ _ _ _ T E2) as (s2' & -> & D2 & _). cbn [bind]. unfold sl_len in *. rewrite D2.
    destruct (if size <? zlen (dat s2) then _ else _) as [out sz]. destruct (set_idx sd x out) as [sd'| | |]; cbn [bind] in *; try discriminate. destruct (idx (d_minifat d) sid) as [n| | |]; cbn [bind] in *; try discriminate. eapply IH; eassumption.
  Qed.
  Lemma open_ext : forall fuel name extra dir r, open_loop fuel d name dir = Ok r -> open_loop fuel d' name (dir ++ extra) = Ok r.
  Proof.
    intros fuel name extra dir r. induction dir as [|e dir IH]; intros H; cbn [open_loop app] in *; [discriminate|]. destruct (dir_string e) as [s| | |]; cbn [bind] in *; try discriminate. destruct (_ && _); [|apply IH; exact H]. rewrite Eh. destruct (de_size e <? _).
    - unfold get_mini_stream_reader in *. unfold sec_size, mini_size in *. rewrite Eh, Es, Ez. destruct (root_loop fuel d _ _ _ _) as [fsd| | |] eqn:E; cbn [bind] in H; try discriminate.
      assert (RX : forall n, Forall2 sl_ext (repeat nil_slice n) (repeat nil_slice n)) by (clear; induction n; cbn [repeat]; constructor; auto; split; [reflexivity|exists []; reflexivity]).
      destruct (root_ext _ _ _ _ _ _ _ (RX _) E) as (fsd' & -> & F). cbn [bind].
      destruct (mini_loop fuel d fsd _ _ _ _) as [sd| | |] eqn:E2; cbn [bind] in H; try discriminate. rewrite (mini_ext _ _ _ _ _ _ _ _ F E2). exact H.
    - destruct (negb (de_size e =? 0)); [|apply IH; exact H]. unfold get_stream_reader in *. unfold sec_size in *. rewrite Eh. destruct (stream_loop fuel d _ _ _ _) as [[sz sd]| | |] eqn:E; cbn [bind] in H; try discriminate. rewrite (stream_ext _ _ _ _ _ _ E). exact H.
  Qed.
End Docs.

Lemma dirs_nil : forall major, build_dirs 4 major [] [] (0, 0) = ([], (0, 0)).
Proof. reflexivity. Qed.
Lemma field_drop' : forall d a b n, 0 <= a -> 0 <= b -> field (zdrop a d) b n = field d (a + b) n.
Proof. intros. unfold field. rewrite zdrop_zdrop by lia. reflexivity. Qed.
Lemma field_one : forall d i, 0 <= i < zlen d -> idx d i = Ok (field d i 1).
Proof.
  intros d i H. unfold idx, field. destruct (Z.leb_spec 0 i); [|lia]. destruct (nth_error d (Z.to_nat i)) as [x|] eqn:E; [|apply nth_error_None in E; unfold zlen in H; lia].
  apply nth_error_split in E as (l1 & l2 & -> & L). unfold zdrop. rewrite <- L, skipn_app, skipn_all, Nat.sub_diag. cbn. change (ztake 1 (x :: l2)) with [x]. cbn [le_val]. f_equal. lia.
Qed.
(** the four directory entries are in the front piece, or the root is the first of them *)
Definition dir_whole (p : bytes) : Prop := (1 + field p 48 4) mod 4294967296 * 2 ^ field p 30 2 + 512 <= zlen p.
Lemma dirs_whole : forall n major d q acc ms, 128 * Z.of_nat n <= zlen d -> build_dirs n major (d ++ q) acc ms = build_dirs n major d acc ms.
Proof.
  induction n as [|n IH]; intros major d q acc ms L; cbn [build_dirs]; [reflexivity|]. cbv zeta. rewrite dirent_app, drop_app by lia. destruct (_ =? typeUnknown); [reflexivity|]. apply IH. rewrite zlen_zdrop; lia.
Qed.
Lemma stream_cut : forall fuel sizes spc sp p q raw t, q ++ sp = spc ++ t -> root_first (p ++ q) \/ dir_whole p ->
  xls_stream fuel sizes spc p None = Ok raw -> xls_stream fuel sizes sp (p ++ q) None = Ok raw.
Proof.
  intros fuel sizes spc sp p q raw t HT RF H. unfold xls_stream in *. destruct (load fuel (mkSl p spc)) as [d| | |] eqn:E; cbn [bind] in H; try discriminate.
  assert (L : 512 <= zlen p). { destruct (Z.ltb_spec (zlen p) 512) as [S|]; [exfalso|lia]. unfold load in E. cbn [dat] in E. unfold read_header in E. destruct (Z.ltb_spec (zlen p) 512); [|lia]. discriminate E. }
  destruct (doc_open fuel d (bs "Workbook")) as [r| | |] eqn:EO; cbn [bind] in H; try discriminate.
  assert (K : exists d', load fuel (mkSl (p ++ q) sp) = Ok d' /\ doc_open fuel d' (bs "Workbook") = Ok r).
  { unfold load in *. cbn [dat] in *. rewrite (header_app p q L). set (h := read_header p) in *. cbv zeta in *.
    repeat match type of E with (if ?b then Err _ else _) = _ => destruct b; [discriminate|] end. destruct (_ || _); [discriminate|].
    destruct (load_fat _ _ _ _ _) as [fat| | |] eqn:E1; cbn [bind] in E; try discriminate. rewrite (fat_cut p q spc sp _ _ _ _ _ E1). cbn [bind].
    match type of E with bind ?x _ = _ => destruct x as [fat2| | |] eqn:E2; cbn [bind] in E; try discriminate end.
    replace (if 0 <? h_numdifat h then difat_loop fuel (mkSl (p ++ q) sp) (h_shift h) (Z.to_nat (2 ^ (h_shift h - 2))) (h_firstdifat h) fat else Ok fat) with (Ok fat2 : res (list Z)).
    2: { destruct (0 <? h_numdifat h); [|symmetry; exact E2]. symmetry. eapply difat_cut. exact E2. }
    cbn [bind]. destruct (minifat_loop _ _ _ _ _ _ _) as [mf| | |] eqn:E3; cbn [bind] in E; try discriminate. rewrite (minifat_cut p q spc sp _ _ _ _ _ _ _ E3). cbn [bind].
    destruct (build_dirs 4 (h_major h) _ [] (0, 0)) as [dir ms] eqn:E4. injection E as <-.
    assert (ND : dir <> []) by (intros ->; unfold doc_open in EO; cbn in EO; discriminate EO).
    set (off := sec_off (h_shift h) (h_firstdir h)) in *.
    assert (P1 : h_shift h = field p 30 2 /\ h_firstdir h = field p 48 4). { unfold h, read_header. destruct (Z.ltb_spec (zlen p) 512); [lia|]. cbn [h_shift h_firstdir]. rewrite rd16_field, rd32_field by lia. auto. }
    assert (P2 : 0 <= off). { unfold off, sec_off, u32. apply Z.mul_nonneg_nonneg; [apply Z.mod_pos_bound; lia|apply Z.pow_nonneg; lia]. }
    assert (P3 : off <= zlen p). { destruct (Z.leb_spec off (zlen p)); [assumption|exfalso]. apply ND. assert (Z0 : zdrop off p = []) by (unfold zdrop; apply skipn_all2; unfold zlen in *; lia). rewrite Z0, dirs_nil in E4. congruence. }
    rewrite drop_app by lia.
    assert (BD : exists extra, build_dirs 4 (h_major h) (zdrop off p ++ q) [] (0, 0) = (dir ++ extra, ms)).
    { destruct RF as [RF|DW]; cycle 1.
      { exists []. rewrite app_nil_r, <- E4. apply dirs_whole. rewrite zlen_zdrop by lia. unfold dir_whole in DW. destruct P1 as [P1 P1']. unfold off, sec_off, u32. rewrite P1, P1'. lia. }
      apply (dirs_cut 3 (h_major h) (zdrop off p) q dir ms E4 ND). intros i Hi. rewrite <- drop_app by lia. rewrite !zdrop_zdrop by lia. unfold read_dirent. destruct (Z.ltb_spec (zlen (zdrop (off + (128 + 128 * Z.of_nat i)) (p ++ q))) 128) as [S|S]; [discriminate|]. cbn [de_type].
      assert (A : off + (128 + 128 * Z.of_nat i) + 66 < zlen (p ++ q)). { destruct (Z.ltb_spec (off + (128 + 128 * Z.of_nat i) + 66) (zlen (p ++ q))); [assumption|exfalso]. unfold zlen, zdrop in *. rewrite skipn_length in S. lia. }
      rewrite field_one by lia. specialize (RF (1 + Z.of_nat i) ltac:(lia)). rewrite field_drop' by lia. destruct P1 as [P1 P1']. unfold off, sec_off, u32 in RF |- *. rewrite P1, P1'. rewrite (field_app p q 48 4), (field_app p q 30 2) in RF by lia.
      intros Q. apply RF. rewrite <- Q. f_equal. lia. }
    destruct BD as (extra & ->).
    eexists. split; [reflexivity|]. unfold doc_open in *. cbn [d_dir] in *. eapply open_ext; [..|exact EO]; cbn [d_data d_header d_fat d_minifat d_msstart d_mssize]; try reflexivity.
    - exists t. unfold sl_full. cbn [dat spare]. rewrite <- !app_assoc, HT. reflexivity.
    - unfold sl_len. cbn [dat]. rewrite zlen_app. pose proof (zlen_nonneg _ q). lia. }
  destruct K as (d' & -> & K). cbn [bind]. rewrite K. cbn [bind]. exact H.
Qed.

(** ** the last sector, partly or wholly behind the end of the file *)
Lemma stream_loop_until : forall d sz, sec_size d = sz -> 0 < sz ->
  forall l s size done m fuel, walk (d_fat d) (l ++ [s]) -> Forall (in_file (dat (d_data d)) sz) l -> zlen l * sz < size ->
  (List.length l <= fuel)%nat -> (List.length l <= m)%nat ->
  stream_loop fuel d (hd s l) size (zlen done) (done ++ repeat [] m) =
  stream_loop (fuel - List.length l) d s (size - zlen l * sz) (zlen (done ++ map (sector (dat (d_data d)) sz) l)) ((done ++ map (sector (dat (d_data d)) sz) l) ++ repeat [] (m - List.length l)).
Proof.
  intros d sz Hsz Hz l. induction l as [|a l IH]; intros s size done m fuel W HF S1 Fu Hm.
  - cbn [app hd map List.length] in *. rewrite !Nat.sub_0_r, app_nil_r, zlen_nil. f_equal. lia.
  - assert (C : 0 <= a /\ nth_error (d_fat d) (Z.to_nat a) = Some (hd s l) /\ walk (d_fat d) (l ++ [s])).
    { destruct l as [|b l]; cbn [app walk hd] in *; tauto. }
    destruct C as (P & N & C'). cbn [hd].
    destruct fuel as [|fuel]; [simpl in Fu; lia|]. destruct m as [|m]; [simpl in Hm; lia|]. cbn [stream_loop].
    inversion HF as [|? ? I HF']; subst x l0. rewrite (in_file_not_end _ _ _ I).
    destruct (in_file_off _ _ _ I Hz) as (U & A & B). unfold sec_off.
    change (2 ^ h_shift (d_header d)) with (sec_size d). rewrite Hsz, U. unfold sl_len at 1.
    destruct (Z.ltb_spec (zlen (dat (d_data d))) ((1 + a) * sz)); [lia|].
    destruct (sl_range_dat (d_data d) ((1 + a) * sz) ((1 + a) * sz + sz)) as (sp & E & _); try lia.
    rewrite E. cbn [bind]. replace ((1 + a) * sz + sz - (1 + a) * sz) with sz by lia.
    fold (sector (dat (d_data d)) sz a). unfold sl_len at 1 2. cbn [dat].
    pose proof (zlen_sector _ _ _ I Hz) as LS. rewrite LS. rewrite zlen_cons in *. pose proof (zlen_nonneg _ l).
    destruct (Z.ltb_spec size sz); [nia|]. cbn [repeat].
    rewrite set_idx_at by auto. cbn [bind]. destruct (Z.eqb_spec (size - sz) 0); [nia|].
    rewrite (idx_nth _ _ _ _ P N). cbn [bind].
    replace (zlen done + 1) with (zlen (done ++ [sector (dat (d_data d)) sz a])) by (rewrite zlen_app, zlen_cons, zlen_nil; lia).
    replace (done ++ sector (dat (d_data d)) sz a :: repeat [] m)
      with ((done ++ [sector (dat (d_data d)) sz a]) ++ repeat [] m) by (rewrite <- app_assoc; reflexivity).
    rewrite IH; auto; [|nia|simpl in Fu; lia|simpl in Hm; lia]. cbn [map List.length]. replace (S fuel - S (List.length l))%nat with (fuel - List.length l)%nat by lia. replace (S m - S (List.length l))%nat with (m - List.length l)%nat by lia.
    rewrite <- !app_assoc. cbn [app]. f_equal. lia.
Qed.
(** the stream of a file that ends before the last sector of its chain does: [s] is that sector *)
Record cut_in_last (p : bytes) (major : Z) (l : list Z) (s size : Z) : Prop := {
  cl_bytes : bytes_ok p;
  cl_chain : exists fat1 fat2 mini firstdir es start,
    cfb_header p major fat1 fat2 mini firstdir /\ dir_at p major firstdir es /\ first_named es (bs "Workbook") start size /\
    walk (fat_of p (sec_bytes major) (fat1 ++ fat2)) (l ++ [s]) /\ start = hd s l;
  cl_size : 4096 <= size;
  cl_others : Forall (in_file p (sec_bytes major)) l;
  cl_covers : zlen l * sec_bytes major < size <= (zlen l + 1) * sec_bytes major;
  cl_number : 0 <= s < 4294967291;
  cl_begins : (1 + s) * sec_bytes major <= zlen p;
  cl_ends : zlen p < (2 + s) * sec_bytes major
}.
(** the sectors of the chain that are in the file, and the last one as the file and the memory behind it give it *)
Definition with_memory (p sp : bytes) (major : Z) (l : list Z) (s size : Z) : bytes :=
  concat (map (sector p (sec_bytes major)) l) ++ ztake (size - zlen l * sec_bytes major) (zdrop ((1 + s) * sec_bytes major) (p ++ sp)).
Lemma cut_last : forall p sp major l s size sizes, cut_in_last p major l s size -> (forall i, 0 < sizes i) ->
  exists N, forall fuel, (N <= fuel)%nat ->
    xls_stream fuel sizes sp p None = if zlen p + zlen sp <? (2 + s) * sec_bytes major then Panic else Ok (with_memory p sp major l s size).
Proof.
  intros p sp major l s size sizes [B (fat1 & fat2 & mini & firstdir & es & start & H & HD & (pre & post & EE & HN) & W & ->) HS HF HC HB H1 H2] HZ. set (sz := sec_bytes major) in *.
  destruct (loaded p sp _ _ _ _ _ _ B H HD) as (N & d & LD & D1 & D2 & D3 & D4 & D5 & D6 & D7 & D8).
  assert (MJ : major = 3 \/ major = 4) by (destruct H; tauto).
  destruct (pow_cases major MJ) as (P1 & P2 & P3 & P4). fold sz in P1, P2, P3, P4, D2, D3, D4.
  assert (KB : size / sz <= zlen l + 1 /\ zlen l <= size / sz) by (clear - HC P4; nia).
  exists (Nat.max N (S (List.length l))). intros fuel Fu. unfold xls_stream. rewrite LD by lia. cbn [bind].
  assert (S1 : stream_loop fuel d (hd s l) size 0 (repeat [] (Z.to_nat (1 + size / sz))) =
    stream_loop (fuel - List.length l) d s (size - zlen l * sz) (zlen (map (sector p sz) l)) (map (sector p sz) l ++ repeat [] (Z.to_nat (1 + size / sz) - List.length l))).
  { pose proof (stream_loop_until d sz D4 ltac:(lia) l s size [] (Z.to_nat (1 + size / sz)) fuel) as SL. rewrite zlen_nil in SL. cbn [app] in SL. rewrite D1, D2 in SL. cbn [dat] in SL. apply SL; auto; try lia. unfold zlen in *. lia. }
  set (k := (Z.to_nat (1 + size / sz) - List.length l - 1)%nat). assert (K : (Z.to_nat (1 + size / sz) - List.length l)%nat = S k /\ (k <= 1)%nat) by (unfold k; clear - KB; unfold zlen in *; lia). destruct K as [K1 K2]. rewrite K1 in S1.
  assert (F1 : (fuel - List.length l)%nat = S (fuel - List.length l - 1)) by (clear - Fu; lia). rewrite F1 in S1. cbn [stream_loop repeat] in S1.
  replace (is_end s) with false in S1 by (clear - HB; unfold is_end, secEndOfChain, secFree; lia). unfold sec_off in S1. change (2 ^ h_shift (d_header d)) with (sec_size d) in S1. rewrite D4 in S1.
  replace (u32 (1 + s)) with (1 + s) in S1 by (clear - HB; unfold u32; rewrite Z.mod_small; lia). unfold sl_len at 1 in S1. rewrite D1 in S1. cbn [dat] in S1. destruct (Z.ltb_spec (zlen p) ((1 + s) * sz)) as [Hlt|_]; [clear - Hlt H1; lia|].
  change (doc_open fuel d (bs "Workbook")) with (open_loop fuel d (string_of_runes (bs "Workbook")) (d_dir d)). rewrite EE in D8.
  rewrite (open_loop_finds fuel d (bs "Workbook") (hd s l) size pre post _ D8 HN ltac:(lia) D6). destruct (Z.ltb_spec size 4096); [lia|]. unfold get_stream_reader. rewrite D4, S1.
  unfold sl_range. unfold sl_full at 1. cbn [dat spare]. rewrite zlen_app. assert (OFF : 0 <= (1 + s) * sz) by (clear - HB P4; apply Z.mul_nonneg_nonneg; lia). destruct (Z.leb_spec 0 ((1 + s) * sz)) as [_|Hlt]; [|clear - OFF Hlt; lia]. destruct (Z.leb_spec ((1 + s) * sz) ((1 + s) * sz + sz)) as [_|Hlt]; [|clear - P4 Hlt; lia]. cbn [andb].
  replace ((2 + s) * sz) with ((1 + s) * sz + sz) by lia.
  destruct (Z.leb_spec ((1 + s) * sz + sz) (zlen p + zlen sp)) as [Q|Q]; [|destruct (Z.ltb_spec (zlen p + zlen sp) ((1 + s) * sz + sz)) as [|Q']; [reflexivity|clear - Q Q'; lia]].
  destruct (Z.ltb_spec (zlen p + zlen sp) ((1 + s) * sz + sz)) as [Q'|_]; [clear - Q Q'; lia|]. cbn [bind].
  unfold sl_full. cbn [dat spare]. set (f := p ++ sp). assert (LF : zlen f = zlen p + zlen sp) by (unfold f; apply zlen_app).
  replace ((1 + s) * sz + sz - (1 + s) * sz) with sz by (clear; lia). unfold sl_len. cbn [dat].
  assert (LP : zlen (ztake sz (zdrop ((1 + s) * sz) f)) = sz) by (clear - OFF LF Q P4; rewrite zlen_ztake; [reflexivity|rewrite zlen_zdrop; lia]). rewrite LP.
  set (rem := size - zlen l * sz) in *. assert (R : 0 < rem <= sz) by (unfold rem; clear - HC; lia).
  assert (O : (if rem <? sz then (ztake rem (ztake sz (zdrop ((1 + s) * sz) f)), 0) else (ztake sz (zdrop ((1 + s) * sz) f), rem - sz)) = (ztake rem (zdrop ((1 + s) * sz) f), 0)).
  { clearbody rem sz f. clear - R. destruct (Z.ltb_spec rem sz); [rewrite ztake_ztake by lia; reflexivity|]. replace rem with sz by lia. rewrite Z.sub_diag. reflexivity. }
  rewrite O. rewrite set_idx_at by auto. cbn [bind]. change (0 =? 0) with true. cbv iota. cbn [bind negb].
  replace (map (sector p sz) l ++ ztake rem (zdrop ((1 + s) * sz) f) :: repeat [] k) with ((map (sector p sz) l ++ [ztake rem (zdrop ((1 + s) * sz) f)]) ++ repeat [] k) by (rewrite <- app_assoc; reflexivity).
  set (ps := map (sector p sz) l ++ [ztake rem (zdrop ((1 + s) * sz) f)]).
  assert (G : good_slices (ps ++ repeat [] k)).
  { apply good_pieces; auto.
    - apply Forall_app. split.
      + apply Forall_forall. intros x Hx E. apply in_map_iff in Hx as (a & <- & Ha). rewrite Forall_forall in HF. pose proof (zlen_sector _ _ _ (HF a Ha) ltac:(clear - P4; lia)) as LS. rewrite E, zlen_nil in LS. clear - LS P4. lia.
      + constructor; [|constructor]. intros E. apply (f_equal zlen) in E. clearbody rem sz f. clear - E R OFF LF Q. rewrite zlen_nil, zlen_ztake in E; [lia|]. rewrite zlen_zdrop by lia. lia.
    - unfold ps. intros E. apply (f_equal (@List.length bytes)) in E. rewrite !app_length in E. cbn in E. clear - E. lia. }
  assert (CC : concat (ps ++ repeat [] k) = with_memory p sp major l s size).
  { rewrite concat_app. replace (concat (repeat [] k)) with (@nil Z) by (clear; induction k; auto). rewrite app_nil_r. unfold ps. rewrite concat_app. cbn [concat]. rewrite app_nil_r. reflexivity. }
  change (negb (0 =? 0)) with false. cbv iota. cbn [bind]. unfold new_sreader at 1. cbn [sr_data]. rewrite <- CC. rewrite <- (C34_read_all_new _ sizes G HZ). f_equal. clear. unfold zlen. lia.
Qed.

Section Opened.
  Variable sizes : nat -> Z.
  Variables sp2 sp3 : bytes.
  Variable unzip : bytes -> xzip + gerr.
  Variable order : list gostr -> list gostr.
  Variable iter : list (Z * Z) -> list (Z * Z).
  Variable rd : bytes -> option gerr -> list (list gostr) * csv_end.
  Variable srt : list (src_open_tab osw source) -> list (src_open_tab osw source).
  Hypothesis HS : sorts_by_priority srt.
  Variable fn : gostr.
  (** Open of a file with these bytes, in a program whose copy of them is followed by the unused bytes [sp] *)
  Definition opening (fuel : nat) (data sp : bytes) (r : res source) : Prop :=
    forall w hist, os_file w fn = FileData data None -> Permutation hist (stock fuel sizes sp sp2 sp3 unzip order iter rd) ->
      fst (open_file (registered srt hist) fn w) = r.
  Lemma opening_xls : forall fuel data sp b, opening fuel data sp (Ok (SrcXls b)) <->
    (raw <- xls_stream fuel sizes sp data None ;; load_workbook (mkSl raw sp2) sp3) = Ok b.
  Proof.
    intros fuel data sp b. assert (X : forall w hist, os_file w fn = FileData data None -> Permutation hist (stock fuel sizes sp sp2 sp3 unzip order iter rd) ->
      (fst (open_file (registered srt hist) fn w) = Ok (SrcXls b) <-> (raw <- xls_stream fuel sizes sp data None ;; load_workbook (mkSl raw sp2) sp3) = Ok b)).
    { intros w hist HW HP. rewrite (stock_table fuel sizes sp sp2 sp3 unzip order iter rd srt hist HS HP). unfold stock. cbn [open_file xls_entry tab_op]. unfold xls_open. rewrite HW.
      destruct (xls_stream fuel sizes sp data None) as [raw|e| |]; cbn [bind]; [|split; [|discriminate]|split; discriminate|split; discriminate].
      - destruct (load_workbook (mkSl raw sp2) sp3) as [b'|e| |]; cbn [bind fst]; [split; congruence| |split; discriminate|split; discriminate]. split; [|discriminate].
        destruct (negb (errors_is e ENotInFormat)); [discriminate|]. cbn [xlsx_entry tsv_entry csv_entry tab_op]. unfold xlsx_open, tsv_open, csv_open. change (os_file (hold fn w)) with (os_file w). rewrite HW.
        destruct (open_xlsx order _) as [o|e2| |]; cbn [bind fst]; try discriminate. destruct (negb (errors_is e2 ENotInFormat)); [discriminate|]. change (os_file (hold fn (hold fn w))) with (os_file w). rewrite HW.
        destruct (open_tsv iter fn _) as [o|e3| |]; cbn [bind fst]; try discriminate. destruct (negb (errors_is e3 ENotInFormat)); [discriminate|].
        destruct (open_csv iter rd fn _) as [o|e4| |]; cbn [bind fst]; try discriminate. destruct (negb (errors_is e4 ENotInFormat)); discriminate.
      - destruct (negb (errors_is e ENotInFormat)); [discriminate|]. cbn [xlsx_entry tsv_entry csv_entry tab_op]. unfold xlsx_open, tsv_open, csv_open. change (os_file (hold fn w)) with (os_file w). rewrite HW.
        destruct (open_xlsx order _) as [o|e2| |]; cbn [bind fst]; try discriminate. destruct (negb (errors_is e2 ENotInFormat)); [discriminate|]. change (os_file (hold fn (hold fn w))) with (os_file w). rewrite HW.
        destruct (open_tsv iter fn _) as [o|e3| |]; cbn [bind fst]; try discriminate. destruct (negb (errors_is e3 ENotInFormat)); [discriminate|].
        destruct (open_csv iter rd fn _) as [o|e4| |]; cbn [bind fst]; try discriminate. destruct (negb (errors_is e4 ENotInFormat)); discriminate. }
    split; [|intros H w hist HW HP; apply (X w hist HW HP); exact H].
    intros H. apply (X (mkOs (fun _ => FileData data None) []) (stock fuel sizes sp sp2 sp3 unzip order iter rd)); auto; apply H; auto.
  Qed.
  Lemma opening_panic : forall fuel data sp, xls_stream fuel sizes sp data None = Panic -> opening fuel data sp Panic.
  Proof.
    intros fuel data sp E w hist HW HP. rewrite (stock_table fuel sizes sp sp2 sp3 unzip order iter rd srt hist HS HP). unfold stock. cbn [open_file xls_entry tab_op]. unfold xls_open. rewrite HW, E. reflexivity.
  Qed.

  (** ** C101 *)
  (** If the first k bytes of a file open as a workbook, and no unused memory lies behind them, the
      whole file opens as the same workbook: a cut-off file is never another workbook. *)
  Theorem C101_cut : forall fuel data k sp b, root_first data ->
    opening fuel (ztake k data) [] (Ok (SrcXls b)) -> opening fuel data sp (Ok (SrcXls b)).
  Proof.
    intros fuel data k sp b RF H. apply opening_xls in H. apply opening_xls. destruct (xls_stream fuel sizes [] (ztake k data) None) as [raw|e| |] eqn:E; cbn [bind] in H; try discriminate.
    assert (D : data = ztake k data ++ zdrop k data) by (unfold ztake, zdrop; symmetry; apply firstn_skipn). rewrite D in RF |- *.
    rewrite (stream_cut _ _ [] sp _ _ _ (zdrop k data ++ sp) eq_refl (or_introl RF) E). exact H.
  Qed.
  (** With memory behind them, they open as the file that consists of them and this memory. *)
  Theorem C101_behind : forall fuel p mem b, root_first (p ++ mem) ->
    opening fuel p mem (Ok (SrcXls b)) -> opening fuel (p ++ mem) [] (Ok (SrcXls b)).
  Proof.
    intros fuel p mem b RF H. apply opening_xls in H. apply opening_xls. destruct (xls_stream fuel sizes mem p None) as [raw|e| |] eqn:E; cbn [bind] in H; try discriminate.
    rewrite (stream_cut _ _ mem [] _ _ _ [] eq_refl (or_introl RF) E). exact H.
  Qed.
  (** Bytes appended to a file that stores a workbook change nothing. *)
  Theorem C101_appended : forall p content more sp sp' b, (forall i, 0 < sizes i) -> stores p (bs "Workbook") content ->
    exists N, forall fuel, (N <= fuel)%nat -> (opening fuel p sp (Ok (SrcXls b)) <-> opening fuel (p ++ more) sp' (Ok (SrcXls b))).
  Proof.
    intros p content more sp sp' b HZ ST. destruct (xls_stream_stored p content sizes sp ST HZ) as (N & HX). destruct (xls_stream_stored p content sizes [] ST HZ) as (N' & HX').
    exists (Nat.max N N'). intros fuel Fu. rewrite !opening_xls. rewrite HX by lia. rewrite (stream_cut fuel sizes [] sp' p more content (more ++ sp') eq_refl); [reflexivity| |apply HX'; lia]. right.
    assert (exists major fat1 fat2 mini firstdir es, cfb_header p major fat1 fat2 mini firstdir /\ dir_at p major firstdir es) as (major & fat1 & fat2 & mini & firstdir & es & H & (I & _)) by (destruct ST; eauto 10).
    assert (MJ : major = 3 \/ major = 4) by (destruct H; tauto). destruct (pow_cases major MJ) as (P1 & P2 & P3 & P4). destruct (in_file_off _ _ _ I ltac:(lia)) as (U & A & B).
    unfold dir_whole. rewrite (ch_firstdir _ _ _ _ _ _ H), (ch_shift _ _ _ _ _ _ H), P1. change ((1 + firstdir) mod 4294967296) with (u32 (1 + firstdir)). rewrite U. assert (512 <= sec_bytes major) by (destruct MJ; subst; cbn; lia). lia.
  Qed.

  (** Violated: a file that ends before the last sector of its workbook does makes Open panic when the
      unused memory behind the file's bytes is too short for the rest of that sector, ... *)
  Theorem C101_panic_refuted : forall p sp major l s size, (forall i, 0 < sizes i) -> cut_in_last p major l s size -> zlen p + zlen sp < (2 + s) * sec_bytes major ->
    exists N, forall fuel, (N <= fuel)%nat -> opening fuel p sp Panic.
  Proof.
    intros p sp major l s size HZ C H. destruct (cut_last p sp major l s size sizes C HZ) as (N & K). exists N. intros fuel Fu. apply opening_panic. rewrite (K fuel Fu). destruct (Z.ltb_spec (zlen p + zlen sp) ((2 + s) * sec_bytes major)); [reflexivity|lia].
  Qed.
  (** ... and otherwise this memory is taken for the lost bytes: no error is reported. *)
  Theorem C101_memory_refuted : forall p sp major l s size b, (forall i, 0 < sizes i) -> cut_in_last p major l s size -> (2 + s) * sec_bytes major <= zlen p + zlen sp ->
    load_workbook (mkSl (with_memory p sp major l s size) sp2) sp3 = Ok b ->
    exists N, forall fuel, (N <= fuel)%nat -> opening fuel p sp (Ok (SrcXls b)).
  Proof.
    intros p sp major l s size b HZ C H HB. destruct (cut_last p sp major l s size sizes C HZ) as (N & K). exists N. intros fuel Fu. apply opening_xls. rewrite (K fuel Fu). destruct (Z.ltb_spec (zlen p + zlen sp) ((2 + s) * sec_bytes major)); [lia|]. exact HB.
  Qed.
End Opened.

(** ** Examples *)
(** a workbook stream of more than 4096 bytes whose last record is a cell with the third shared string; in the
    file it is not filled up to a whole sector *)
Definition exk_sheet : xsheet := mkXS P_xls.ex_bof [] (Some (0, 1, 0, 1, [0; 0])) [CLabel 0 0 0 2] [].
Definition exk_globals (pos : Z) : list grec :=
  [ GCodePage 1200 []; GXf 0 0 [1; 2]; GSheet pos 0 0 0 false (bs "Data"); GSst 3 ex_items; GSkip 255 (repeat 8 4000) [] ].
Definition exk_pos : Z := zlen (stream (globals_recs P_xls.ex_bof (exk_globals 0) [])).
Definition exk_content : bytes := stream (concat [globals_recs P_xls.ex_bof (exk_globals exk_pos) []; xs_recs exk_sheet]).
Definition exk_fat : list Z := [4294967293; ENDOFCHAIN; 3; 4; 5; 6; 7; 8; 9; 10; ENDOFCHAIN] ++ repeat FREESECT 117.
Definition exk_file : bytes :=
  hdr_bytes 3 1 1 ENDOFCHAIN 0 ENDOFCHAIN 0 [0] ++ flat_map put32 exk_fat ++
  (ex_entry ex_root 5 ENDOFCHAIN 0 ++ ex_entry (bs "Workbook") 2 2 4195 ++ repeat 0 256) ++ exk_content.
Definition exk_es := [(ex_root, 5, ENDOFCHAIN, 0); (bs "Workbook", 2, 2, 4195)].
(** the same without the last 8 bytes: the number of the string in the last cell, and the end of the sheet *)
Definition exk_cut : bytes := ztake 5723 exk_file.
Lemma exk_header : cfb_header exk_cut 3 [0] [] None 1.
Proof.
  constructor.
  - apply Z.leb_le. vmr.
  - vmr.
  - split; vmr.
  - split; [auto|vmr].
  - vmr.
  - vmr.
  - vmr.
  - vmr.
  - intros _. vmr.
  - split; vmr.
  - vmr.
  - vmr.
  - split; vmr.
  - exists []. split; [vmr|]. split; [vmr|].
    replace (field exk_cut 68 4) with ENDOFCHAIN by vmr. constructor.
  - apply Z.leb_le. vmr.
  - intros i Hi. assert (F : forallb (fun i => field exk_cut (76 + 4 * Z.of_nat i) 4 =? nth i [0] FREESECT) (seq 0 109) = true) by vmr.
    rewrite forallb_forall in F. apply Z.eqb_eq. apply F. apply in_seq. lia.
  - constructor; [apply in_file_b; vmr|constructor].
Qed.
Lemma exk_in_last : cut_in_last exk_cut 3 [2; 3; 4; 5; 6; 7; 8; 9] 10 4195.
Proof.
  constructor.
  - assert (F : forallb (fun b => (0 <=? b) && (b <? 256)) exk_cut = true) by (vm_compute; reflexivity).
    apply Forall_forall. intros x Hx. rewrite forallb_forall in F. specialize (F x Hx). lia.
  - exists [0], [], None, 1, exk_es, 2. split; [exact exk_header|]. split; [|split; [|split; [|reflexivity]]].
    + split; [apply in_file_b; vmr|]. unfold exk_es. cbn [directory]. split; [apply dir_entry_b; vmr|]. split; [apply dir_entry_b; vmr|]. right. vmr.
    + exists [(ex_root, 5, ENDOFCHAIN, 0)], []. split; [reflexivity|]. intros n ty st sz [[= <- <- <- <-]|[]] Q. discriminate.
    + change (sec_bytes 3) with 512. replace (fat_of exk_cut 512 ([0] ++ [])) with exk_fat by vmr. cbn [app walk]. repeat (split; [lia|split; [reflexivity|]]). lia.
  - lia.
  - repeat (constructor; [apply in_file_b; vmr|]). constructor.
  - vm_compute. split; congruence.
  - lia.
  - vm_compute. congruence.
  - vm_compute. congruence.
Qed.
Definition exk_read (data sp : bytes) : res (list (list M_value.goval)) :=
  match open_file (stock 5000 (fun _ => 512) sp [] [] exo_unzip (fun l => l) (fun l => l) exo_rd) (bs "k.xls") (mkOs (fun _ => FileData data None) []) with
  | (Ok (SrcXls b), _) => match wb_get b (bs "Data") with Ok (Some s) => M_sheet.raw (snd (M_sheet.next s)) | _ => Err EStreamNotFound end
  | (Panic, _) => Panic
  | _ => Err EStreamNotFound
  end.
(** The file itself, with 500 unused zero bytes behind it in memory, shows the third shared string.  Cut, without
    such memory, it panics; with zeros it shows the first string, with other bytes the second (an empty one). *)
Example ex_C101 : root_first exk_file /\
  exk_read exk_file (repeat 0 500) = Ok [[M_value.GStr (nth 2 (P_xls.book_strings (exk_globals 0)) []); M_value.GCType M_value.StringCell]] /\
  exk_read (exk_file ++ repeat 0 413) [] = exk_read exk_file (repeat 0 500) /\
  exk_read exk_cut [] = Panic /\
  exk_read exk_cut (repeat 0 500) = Ok [[M_value.GStr (nth 0 (P_xls.book_strings (exk_globals 0)) []); M_value.GCType M_value.StringCell]] /\
  exk_read exk_cut (put32 1 ++ [10; 0; 0; 0] ++ repeat 0 500) = Ok [[]] /\
  NoDup (P_xls.book_strings (exk_globals 0)).
Proof.
  split.
  - intros i Hi. assert (C : i = 1 \/ i = 2 \/ i = 3) by lia. destruct C as [->|[->| ->]]; vm_compute; discriminate.
  - split; [vmr|]. split; [vmr|]. split; [vmr|]. split; [vmr|]. split; [vmr|]. vm_compute. repeat constructor; intros H; repeat (destruct H as [H|H]; [discriminate H|]); exact H.
Qed.
Print Assumptions C101_cut.
Print Assumptions C101_behind.
Print Assumptions C101_appended.
Print Assumptions C101_panic_refuted.
Print Assumptions C101_memory_refuted.
