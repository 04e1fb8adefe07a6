(** * P_cfb: C36 to C41, compound files. *)
From Verif Require Import GoBase GoUnicode L_base M_slicereader S_slicereader L_slicereader M_cfb S_cfb L_cfb P_slicereader.
From Coq Require Import ZifyBool.

(** ** the setting: a well-formed file, its FAT, its directory *)
Definition fat_of (data : bytes) (sz : Z) (fatsecs : list Z) : list Z :=
  flat_map (fun s => words (sector data sz s)) fatsecs.
Definition minifat_of (data : bytes) (sz : Z) (mini : option Z) : list Z :=
  match mini with None => [] | Some m => words (sector data sz m) end.
(** the directory (its first four entries) and the place of a stream in it: no earlier stream
    has the same name *)
Definition dir_at (data : bytes) (major firstdir : Z) (es : list (list Z * Z * Z * Z)) : Prop :=
  in_file data (sec_bytes major) firstdir /\
  directory 4 major (zdrop ((1 + firstdir) * sec_bytes major) data) es.
Definition first_named (es : list (list Z * Z * Z * Z)) (name : list Z) (start size : Z) : Prop :=
  exists pre post, es = pre ++ (name, 2, start, size) :: post /\
  forall n ty st sz, In (n, ty, st, sz) pre -> ty = 2 -> string_of_runes n <> string_of_runes name.

Lemma loaded : forall data sp major fat1 fat2 mini firstdir es, bytes_ok data ->
  cfb_header data major fat1 fat2 mini firstdir -> dir_at data major firstdir es ->
  exists N d, (forall fuel, (N <= fuel)%nat -> load fuel (mkSl data sp) = Ok d) /\
    d_data d = mkSl data sp /\ d_fat d = fat_of data (sec_bytes major) (fat1 ++ fat2) /\
    d_minifat d = minifat_of data (sec_bytes major) mini /\
    sec_size d = sec_bytes major /\ mini_size d = 64 /\ u64 (h_cutoff (d_header d)) = 4096 /\
    (d_msstart d, d_mssize d) = root_of es (0, 0) /\ Forall2 entry_of es (d_dir d).
Proof.
  intros data sp major fat1 fat2 mini firstdir es B H (I & HD).
  pose proof (load_ok data sp _ _ _ _ _ H) as L. cbv zeta in L.
  pose proof (header_fields _ _ _ _ _ _ H) as HH. cbv zeta in HH.
  destruct HH as (H1 & H2 & H3 & H4 & H5 & H6 & H7 & H8 & H9 & H10 & H11 & H12 & _).
  assert (MJ : major = 3 \/ major = 4) by (destruct H; tauto).
  destruct (pow_cases major MJ) as (P1 & P2 & P3 & P4).
  destruct (in_file_off _ _ _ I ltac:(lia)) as (U & _ & _). rewrite U in L.
  destruct (build_dirs_spec 4 major (zdrop ((1 + firstdir) * sec_bytes major) data) es [] (0, 0)
    (bytes_ok_zdrop _ _ B) HD) as (xs & BD & HF).
  rewrite BD in L. cbn [app] in L. destruct L as (N & L). exists N. eexists. split; [exact L|].
  unfold sec_size, mini_size. cbn [d_data d_fat d_minifat d_header d_msstart d_mssize d_dir]. rewrite H6, H7, H12, P1.
  destruct (root_of es (0, 0)). cbn [fst snd]. repeat split; auto.
Qed.

(** ** C36 *)
(** Opening a stream of at least 4096 bytes: the reader delivers exactly the first [size] bytes
    of the chain's sectors, in chain order. *)
Theorem C36_stream_bytes : forall data sp major fat1 fat2 mini firstdir es name start size l,
  let sz := sec_bytes major in
  bytes_ok data -> cfb_header data major fat1 fat2 mini firstdir -> dir_at data major firstdir es ->
  first_named es name start size -> 4096 <= size ->
  walk (fat_of data sz (fat1 ++ fat2)) (start :: l) -> Forall (in_file data sz) (start :: l) ->
  zlen (start :: l) = sectors_for size sz ->
  exists N, forall fuel, (N <= fuel)%nat -> exists d sd,
    load fuel (mkSl data sp) = Ok d /\
    doc_open fuel d (string_of_runes name) = Ok (new_sreader sd) /\
    good_slices sd /\
    concat sd = ztake size (concat (map (sector data sz) (start :: l))) /\ zlen (concat sd) = size.
Proof.
  intros data sp major fat1 fat2 mini firstdir es name start size l sz B H HD (pre & post & EE & HN) HS W HF HL.
  destruct (loaded data sp _ _ _ _ _ _ B H HD) as (N & d & LD & D1 & D2 & D3 & D4 & D5 & D6 & D7 & D8).
  assert (MJ : major = 3 \/ major = 4) by (destruct H; tauto).
  destruct (pow_cases major MJ) as (P1 & P2 & P3 & P4). fold sz in P1, P2, P3, P4, D2, D3, D4.
  assert (LL : zlen l * sz < size <= (zlen l + 1) * sz).
  { rewrite zlen_cons in HL. unfold sectors_for in HL. clear - HL P4. nia. }
  set (k := Z.to_nat (1 + size / sz - (zlen l + 1))).
  assert (KB : size / sz <= zlen l + 1 /\ zlen l <= size / sz) by (clear - LL P4; nia).
  exists (Nat.max N (S (List.length l))). intros fuel Fu. exists d, (pieces size (map (sector data sz) (start :: l)) ++ repeat [] k).
  split; [apply LD; lia|].
  assert (ZS : Forall (fun s : bytes => zlen s = sz) (map (sector data sz) (start :: l))).
  { apply Forall_forall. intros x Hx. apply in_map_iff in Hx as (s & <- & Hs). apply zlen_sector; [|lia]. rewrite Forall_forall in HF. auto. }
  assert (CC : concat (pieces size (map (sector data sz) (start :: l)) ++ repeat [] k) =
               ztake size (concat (map (sector data sz) (start :: l)))).
  { rewrite concat_app, pieces_concat by lia. replace (concat (repeat [] k)) with (@nil Z) by (clear; induction k; auto). apply app_nil_r. }
  split; [|split; [|split; [exact CC|]]].
  - unfold doc_open. rewrite EE in D8. rewrite (open_loop_finds fuel d name start size pre post _ D8 HN ltac:(lia) D6).
    destruct (Z.ltb_spec size 4096); [lia|]. unfold get_stream_reader. rewrite D4.
    replace (Z.to_nat (1 + size / sz)) with (S (List.length l) + k)%nat by (unfold k, zlen in *; lia).
    pose proof (stream_loop_ok d sz D4 ltac:(lia) l start size [] k fuel) as SL. rewrite zlen_nil in SL. cbn [app] in SL.
    rewrite D1, D2 in SL. cbn [dat] in SL. rewrite SL; auto; lia.
  - apply good_pieces.
    + eapply pieces_nonempty; [| exact ZS |]; [lia|]. rewrite map_length. cbn [List.length]. unfold zlen in LL. lia.
    + unfold k. lia.
    + cbn [map pieces app]. discriminate.
  - rewrite CC. rewrite zlen_ztake; [reflexivity|].
    assert (ZC : forall L : list bytes, Forall (fun s => zlen s = sz) L -> zlen (concat L) = zlen L * sz).
    { clear. intros L HL. induction HL; [reflexivity|]. cbn [concat]. rewrite zlen_app, zlen_cons, H, IHHL. lia. }
    rewrite (ZC _ ZS). rewrite zlen_map, zlen_cons. lia.
Qed.

(** ... and reading it to the end, with any sequence of buffer sizes, returns these bytes. *)
Theorem C36_read_all : forall data sp major fat1 fat2 mini firstdir es name start size l sizes,
  let sz := sec_bytes major in
  bytes_ok data -> cfb_header data major fat1 fat2 mini firstdir -> dir_at data major firstdir es ->
  first_named es name start size -> 4096 <= size ->
  walk (fat_of data sz (fat1 ++ fat2)) (start :: l) -> Forall (in_file data sz) (start :: l) ->
  zlen (start :: l) = sectors_for size sz -> (forall i, 0 < sizes i) ->
  exists N, forall fuel, (N <= fuel)%nat ->
    (d <- load fuel (mkSl data sp) ;; r <- doc_open fuel d (string_of_runes name) ;;
     sr_read_all (Z.to_nat (size + 1)) sizes r []) =
    Ok (ztake size (concat (map (sector data sz) (start :: l)))).
Proof.
  intros data sp major fat1 fat2 mini firstdir es name start size l sizes sz B H HD F HS W HF HL HZ.
  destruct (C36_stream_bytes data sp _ _ _ _ _ _ _ _ _ _ B H HD F HS W HF HL) as (N & HX).
  exists N. intros fuel Fu. destruct (HX fuel Fu) as (d & sd & A1 & A2 & A3 & A4 & A5).
  rewrite A1. cbn [bind]. rewrite A2. cbn [bind]. fold sz in A4. rewrite <- A4, <- A5. apply C34_read_all_new; auto.
Qed.

(** A chain that ends before the size is covered is an error. *)
Theorem C36_short_chain : forall data sp major fat1 fat2 mini firstdir es name start size l,
  let sz := sec_bytes major in
  bytes_ok data -> cfb_header data major fat1 fat2 mini firstdir -> dir_at data major firstdir es ->
  first_named es name start size -> 4096 <= size ->
  chain (fat_of data sz (fat1 ++ fat2)) start l -> Forall (in_file data sz) l -> zlen l * sz < size ->
  exists N d, forall fuel, (N <= fuel)%nat ->
    load fuel (mkSl data sp) = Ok d /\ doc_open fuel d (string_of_runes name) = Err EIncomplete.
Proof.
  intros data sp major fat1 fat2 mini firstdir es name start size l sz B H HD (pre & post & EE & HN) HS W HF HL.
  destruct (loaded data sp _ _ _ _ _ _ B H HD) as (N & d & LD & D1 & D2 & D3 & D4 & D5 & D6 & D7 & D8).
  assert (MJ : major = 3 \/ major = 4) by (destruct H; tauto).
  destruct (pow_cases major MJ) as (P1 & P2 & P3 & P4). fold sz in P1, P2, P3, P4, D2, D3, D4.
  exists (Nat.max N (List.length l)), d. intros fuel Fu. split; [apply LD; lia|].
  unfold doc_open. rewrite EE in D8. rewrite (open_loop_finds fuel d name start size pre post _ D8 HN ltac:(lia) D6).
  destruct (Z.ltb_spec size 4096); [lia|]. unfold get_stream_reader. rewrite D4.
  pose proof (stream_loop_short d sz D4 ltac:(lia) l start size [] (Z.to_nat (1 + size / sz)) fuel) as SL.
  rewrite zlen_nil in SL. cbn [app] in SL. rewrite D1, D2 in SL. cbn [dat] in SL.
  destruct SL as (sd & SL); auto; try lia.
  { assert (zlen l <= size / sz) by (apply Z.div_le_lower_bound; lia). unfold zlen in *. lia. }
  rewrite SL. cbn [bind]. destruct (Z.eqb_spec (size - zlen l * sz) 0); [lia|]. reflexivity.
Qed.

(** Extraction terminates whatever the FAT, the mini FAT and the directory say: for any document
    in memory there is a number of steps that suffices. *)
Lemma u64_nonneg : forall x, 0 <= u64 x.
Proof. intros. unfold u64. apply Z.mod_pos_bound. lia. Qed.
Theorem C36_terminates : forall d name, 0 <= h_shift (d_header d) -> 0 <= h_minishift (d_header d) ->
  0 <= d_mssize d -> (forall e, In e (d_dir d) -> 0 <= de_size e) ->
  exists N, forall fuel, (N <= fuel)%nat -> doc_open fuel d name <> NoFuel.
Proof.
  intros d name S1 S2 HM HD.
  assert (Z1 : 0 < sec_size d) by (unfold sec_size; apply Z.pow_pos_nonneg; lia).
  assert (Z2 : 0 < mini_size d) by (unfold mini_size; apply Z.pow_pos_nonneg; lia).
  unfold doc_open. induction (d_dir d) as [|e r IH]; [exists O; discriminate|].
  destruct IH as (N & IH). { intros. apply HD. right. auto. }
  pose proof (HD e (or_introl eq_refl)) as HE. clear HD.
  set (M1 := (2 + d_mssize d / sec_size d)). set (M2 := 2 + de_size e / mini_size d). set (M3 := 1 + de_size e).
  exists (N + Z.to_nat M1 + Z.to_nat M2 + Z.to_nat M3)%nat. intros fuel Fu. cbn [open_loop].
  assert (0 <= d_mssize d / sec_size d) by (apply Z.div_pos; lia).
  assert (0 <= de_size e / mini_size d) by (apply Z.div_pos; lia).
  unfold M1, M2, M3 in Fu.
  destruct (dir_string e) as [s|er| |] eqn:DS; cbn [bind]; try discriminate.
  2: { unfold dir_string, substr in DS. repeat (match type of DS with context [if ?b then _ else _] => destruct b end; cbn [bind] in DS); try discriminate. }
  destruct (str_eqb s name && (de_type e =? typeStream)); [|apply IH; lia].
  destruct (de_size e <? _).
  - unfold get_mini_stream_reader.
    destruct (root_loop _ _ _ _ _ _) as [fsd|er| |] eqn:RL; cbn [bind]; try discriminate.
    + destruct (mini_loop _ _ _ _ _ _ _) as [sd|er| |] eqn:ML; cbn [bind]; try discriminate.
      exfalso. eapply mini_loop_fuel; [| |exact ML]; unfold zlen; rewrite repeat_length; lia.
    + exfalso. eapply root_loop_fuel; [| |exact RL]; unfold zlen; rewrite repeat_length; lia.
  - destruct (Z.eqb_spec (de_size e) 0); cbn [negb]; [apply IH; lia|].
    unfold get_stream_reader. destruct (stream_loop _ _ _ _ _ _) as [[z sd]|er| |] eqn:SL; cbn [bind]; try discriminate.
    + destruct (negb _); discriminate.
    + exfalso. eapply (stream_loop_fuel d (sec_size d)); [reflexivity | lia | | | exact SL]; [lia|].
      assert (Z.of_nat fuel * 1 <= Z.of_nat fuel * sec_size d) by (apply Z.mul_le_mono_nonneg_l; lia). lia.
Qed.

(** every file that loads gives such a document *)
Lemma le_val_nonneg : forall l, bytes_ok l -> 0 <= le_val l.
Proof. induction 1; cbn [le_val]; lia. Qed.
Lemma rd32_nonneg : forall d o, bytes_ok d -> 0 <= o -> o + 4 <= zlen d -> 0 <= rd32 d o.
Proof. intros. rewrite rd32_field by lia. apply le_val_nonneg, bytes_ok_ztake, bytes_ok_zdrop. auto. Qed.
Lemma rd64_nonneg : forall d o, bytes_ok d -> 0 <= o -> o + 8 <= zlen d -> 0 <= rd64 d o.
Proof. intros. rewrite rd64_field by lia. apply le_val_nonneg, bytes_ok_ztake, bytes_ok_zdrop. auto. Qed.
Lemma build_dirs_sizes : forall n major d dir ms dir' ms', bytes_ok d -> 0 <= snd ms ->
  (forall e, In e dir -> 0 <= de_size e) -> build_dirs n major d dir ms = (dir', ms') ->
  0 <= snd ms' /\ (forall e, In e dir' -> 0 <= de_size e) /\ (List.length dir' <= List.length dir + n)%nat.
Proof.
  induction n; intros major d dir ms dir' ms' B HM HD H; cbn [build_dirs] in H.
  - injection H as <- <-. repeat split; auto; lia.
  - destruct (de_type _ =? _).
    + injection H as <- <-. repeat split; auto; lia.
    + apply IHn in H.
      * rewrite app_length in H. cbn [List.length] in H. destruct H as (A & C & D). repeat split; auto; lia.
      * apply bytes_ok_zdrop. auto.
      * destruct (_ =? typeRootStorage); auto. cbn [snd]. unfold u32. apply Z.mod_pos_bound. lia.
      * intros e He. apply in_app_or in He as [He|[<-|[]]]; auto. unfold read_dirent.
        destruct (Z.ltb_spec (zlen d) 128); [cbn; lia|]. cbn [de_size]. destruct (major =? 3).
        { unfold u32. apply Z.mod_pos_bound. lia. }
        { apply rd64_nonneg; auto; lia. }
Qed.
Lemma load_inv : forall fuel data d, load fuel data = Ok d -> bytes_ok (dat data) ->
  let h := read_header (dat data) in
  d_header d = h /\ d_data d = data /\
  h_signature h = 16220472316735377360 /\ h_byteorder h = 65534 /\ h_class0 h = 0 /\ h_class1 h = 0 /\
  (h_shift h = 9 \/ h_shift h = 12) /\ h_minishift h = 6 /\ h_cutoff h = 4096 /\
  0 <= d_mssize d /\ (forall e, In e (d_dir d) -> 0 <= de_size e) /\ (List.length (d_dir d) <= 4)%nat /\
  minifat_loop fuel data (h_shift h) (Z.to_nat (2 ^ (h_shift h - 2))) (h_numminifat h) (h_firstminifat h) [] = Ok (d_minifat d) /\
  build_dirs 4 (h_major h) (zdrop (sec_off (h_shift h) (h_firstdir h)) (dat data)) [] (0, 0) = (d_dir d, (d_msstart d, d_mssize d)).
Proof.
  intros fuel data d H B. unfold load in H. cbv zeta. set (h := read_header (dat data)) in *.
  destruct (Z.eqb_spec (h_signature h) 16220472316735377360) as [E1|]; [|discriminate]. cbn [negb] in H.
  destruct (Z.eqb_spec (h_byteorder h) 65534) as [E2|]; [|discriminate]. cbn [negb] in H.
  destruct ((h_class0 h =? 0) && (h_class1 h =? 0)) eqn:E3; [|discriminate]. cbn [negb] in H.
  destruct ((h_major h =? 3) || (h_major h =? 4)) eqn:E4; [|discriminate]. cbn [negb] in H.
  destruct (negb (forallb _ _)); [discriminate|].
  destruct ((h_major h =? 3) && negb (h_shift h =? 9)) eqn:E5; [discriminate|].
  destruct ((h_major h =? 3) && negb (h_numdir h =? 0)); [discriminate|].
  destruct ((h_major h =? 4) && negb (h_shift h =? 12)) eqn:E6; [discriminate|].
  destruct (Z.eqb_spec (h_minishift h) 6) as [E7|]; [|discriminate]. cbn [negb] in H.
  destruct (Z.eqb_spec (h_cutoff h) 4096) as [E8|]; [|discriminate]. cbn [negb] in H.
  destruct ((s32 (1 + h_numfat h) <? 0) || (s32 (1 + h_numminifat h) <? 0)); [discriminate|].
  destruct (load_fat _ _ _ _ _) as [f1|?| |]; cbn [bind] in H; try discriminate.
  destruct (if 0 <? h_numdifat h then _ else _) as [f2|?| |]; cbn [bind] in H; try discriminate.
  destruct (minifat_loop _ _ _ _ _ _ _) as [mf|?| |] eqn:EM; cbn [bind] in H; try discriminate.
  destruct (build_dirs _ _ _ _ _) as [dir ms] eqn:ED. injection H as <-.
  cbn [d_header d_data d_mssize d_dir d_minifat d_msstart].
  assert (SZ := ED). apply build_dirs_sizes in SZ; [| apply bytes_ok_zdrop; auto | cbn; lia | intros e []].
  destruct SZ as (SZ1 & SZ2 & SZ3). destruct ms as [m1 m2]. cbn [fst snd List.length] in *.
  repeat split; auto; lia.
Qed.
Theorem C36_terminates_loaded : forall fuel0 data d name, bytes_ok (dat data) -> load fuel0 data = Ok d ->
  exists N, forall fuel, (N <= fuel)%nat -> doc_open fuel d name <> NoFuel.
Proof.
  intros fuel0 data d name B H. destruct (load_inv _ _ _ H B) as (A & _ & _ & _ & _ & _ & A1 & A2 & _ & A3 & A4 & _).
  apply C36_terminates; auto; rewrite A; lia.
Qed.

(** ** C37 *)
(** the root entry: it gives the place of the mini stream *)
Definition root_entry (es : list (list Z * Z * Z * Z)) (start size : Z) : Prop :=
  exists pre n post, es = pre ++ (n, 5, start, size) :: post /\ 0 <= size < 4294967296 /\
  forall n ty st sz, In (n, ty, st, sz) post -> ty <> 5.
Lemma root_of_entry : forall es start size ms, root_entry es start size -> root_of es ms = (start, size).
Proof.
  intros es start size ms (pre & n & post & -> & HS & HP). revert ms. induction pre as [|[[[a b] c] e] pre IH]; intros ms.
  - cbn [app root_of]. change (5 =? 5) with true. cbn iota. unfold u32. rewrite Z.mod_small by lia.
    induction post as [|[[[a b] c] e] post IH]; [reflexivity|]. cbn [root_of].
    destruct (Z.eqb_spec b 5) as [Q|Q]; [|apply IH; intros; eapply HP; right; eauto].
    exfalso. eapply HP; [left; reflexivity|]. auto.
  - cbn [app root_of]. apply IH.
Qed.

(** what Open delivers for any stream under 4096 bytes whose mini chain fits the size *)
Lemma mini_general : forall data sp major fat1 fat2 mini firstdir es name start size rstart rsize roots l,
  let sz := sec_bytes major in
  bytes_ok data -> cfb_header data major fat1 fat2 mini firstdir -> dir_at data major firstdir es ->
  first_named es name start size -> 0 <= size < 4096 ->
  root_entry es rstart rsize -> chain (fat_of data sz (fat1 ++ fat2)) rstart roots -> Forall (in_file data sz) roots ->
  zlen roots = sectors_for rsize sz ->
  chain (minifat_of data sz mini) start l -> Forall (fun i => (i + 1) * 64 <= zlen roots * sz) l ->
  zlen l <= sectors_for size 64 ->
  exists N, forall fuel, (N <= fuel)%nat -> exists d,
    load fuel (mkSl data sp) = Ok d /\
    doc_open fuel d (string_of_runes name) =
      Ok (new_sreader (pieces size (map (mini_sector (concat (map (sector data sz) roots))) l) ++
                       repeat [] (Z.to_nat (1 + size / 64) - List.length l))).
Proof.
  intros data sp major fat1 fat2 mini firstdir es name start size rstart rsize roots l sz B H HD (pre & post & EE & HN) HS HR C1 F1 L1 C2 F2 L2.
  destruct (loaded data sp _ _ _ _ _ _ B H HD) as (N & d & LD & D1 & D2 & D3 & D4 & D5 & D6 & D7 & D8).
  assert (MJ : major = 3 \/ major = 4) by (destruct H; tauto).
  destruct (pow_cases major MJ) as (P1 & P2 & P3 & P4). fold sz in P1, P2, P3, P4, D2, D3, D4.
  assert (RS : 0 <= rsize) by (destruct HR as (? & ? & ? & _ & ? & _); lia).
  rewrite (root_of_entry _ _ _ _ HR) in D7. injection D7 as M1 M2.
  assert (K1 : (List.length roots <= Z.to_nat (1 + rsize / sz))%nat).
  { unfold sectors_for in L1. assert (zlen roots <= 1 + rsize / sz) by (clear - L1 RS P4; nia). unfold zlen in *. lia. }
  assert (K2 : (List.length l <= Z.to_nat (1 + size / 64))%nat).
  { unfold sectors_for in L2. assert (zlen l <= 1 + size / 64) by (clear - L2 HS; lia). unfold zlen in *. lia. }
  exists (N + List.length roots + List.length l)%nat. intros fuel Fu. exists d.
  split; [apply LD; lia|].
  unfold doc_open. rewrite EE in D8. rewrite (open_loop_finds fuel d name start size pre post _ D8 HN ltac:(lia) D6).
  destruct (Z.ltb_spec size 4096); [|lia]. unfold get_mini_stream_reader. rewrite D4, D5, M1, M2.
  pose proof (root_loop_ok d sz D4 ltac:(lia) roots rstart rsize [] (Z.to_nat (1 + rsize / sz)) fuel) as RL.
  rewrite zlen_nil in RL. cbn [app] in RL. rewrite D1, D2 in RL. cbn [dat] in RL.
  destruct RL as (rs & RL & RM); auto; try lia. rewrite RL. cbn [bind].
  pose proof (mini_loop_ok d sz roots (rs ++ repeat nil_slice (Z.to_nat (1 + rsize / sz) - List.length roots)) D4 D5 ltac:(lia)) as ML.
  rewrite D1, D3 in ML. cbn [dat] in ML.
  assert (S64 : sz mod 64 = 0) by (unfold sz, sec_bytes; destruct (major =? 3); reflexivity).
  assert (EX : exists rs0 k, rs ++ repeat nil_slice (Z.to_nat (1 + rsize / sz) - List.length roots) = rs0 ++ repeat nil_slice k /\
     map sl_full rs0 = map (fun s => zdrop ((1 + s) * sz) (sl_full (mkSl data sp))) roots) by (eexists _, _; split; [reflexivity|auto]).
  specialize (ML S64 F1 EX l start size [] (Z.to_nat (1 + size / 64)) fuel C2 F2 ltac:(lia) K2 ltac:(lia)).
  rewrite zlen_nil in ML. cbn [app] in ML. rewrite ML. reflexivity.
Qed.

(** each mini sector inside the mini stream has 64 bytes *)
Lemma mini_sizes : forall data sz roots l, 0 < sz -> Forall (in_file data sz) roots ->
  (forall i, In i l -> 0 <= i) -> Forall (fun i => (i + 1) * 64 <= zlen roots * sz) l ->
  Forall (fun s : bytes => zlen s = 64) (map (mini_sector (concat (map (sector data sz) roots))) l).
Proof.
  intros data sz roots l Hz F1 HI F2.
  assert (ZC : zlen (concat (map (sector data sz) roots)) = zlen roots * sz).
  { clear - F1 Hz. induction F1; [reflexivity|]. cbn [map concat]. rewrite zlen_app, zlen_cons, zlen_sector, IHF1 by auto. lia. }
  apply Forall_forall. intros x Hx. apply in_map_iff in Hx as (i & <- & Hi).
  rewrite Forall_forall in F2. specialize (F2 i Hi). specialize (HI i Hi). unfold mini_sector.
  rewrite zlen_ztake; auto. rewrite zlen_zdrop; lia.
Qed.
Lemma chain_nonneg : forall fat s l, chain fat s l -> forall i, In i l -> 0 <= i.
Proof. induction 1; intros i Hi; [destruct Hi|]. destruct Hi as [<-|Hi]; auto. Qed.
Lemma zlen_concat : forall (L : list bytes) n, Forall (fun s => zlen s = n) L -> zlen (concat L) = zlen L * n.
Proof. intros L n H. induction H; [reflexivity|]. cbn [concat]. rewrite zlen_app, zlen_cons, H, IHForall. lia. Qed.
Lemma concat_empties : forall k, concat (repeat (@nil Z) k) = [].
Proof. induction k; auto. Qed.

(** Opening a stream under 4096 bytes: the reader delivers exactly the first [size] bytes of
    its mini sectors in mini-FAT order; the mini stream is the concatenation of the root
    entry's chain. *)
Theorem C37_mini_stream_bytes : forall data sp major fat1 fat2 mini firstdir es name start size rstart rsize roots l,
  let sz := sec_bytes major in
  bytes_ok data -> cfb_header data major fat1 fat2 mini firstdir -> dir_at data major firstdir es ->
  first_named es name start size -> 0 <= size < 4096 ->
  root_entry es rstart rsize -> chain (fat_of data sz (fat1 ++ fat2)) rstart roots -> Forall (in_file data sz) roots ->
  zlen roots = sectors_for rsize sz ->
  chain (minifat_of data sz mini) start l -> Forall (fun i => (i + 1) * 64 <= zlen roots * sz) l ->
  zlen l = sectors_for size 64 ->
  exists N, forall fuel, (N <= fuel)%nat -> exists d sd,
    load fuel (mkSl data sp) = Ok d /\
    doc_open fuel d (string_of_runes name) = Ok (new_sreader sd) /\
    good_slices sd /\
    concat sd = ztake size (concat (map (mini_sector (concat (map (sector data sz) roots))) l)) /\
    zlen (concat sd) = size.
Proof.
  intros data sp major fat1 fat2 mini firstdir es name start size rstart rsize roots l sz B H HD HN HS HR C1 F1 L1 C2 F2 L2.
  destruct (mini_general data sp _ _ _ _ _ _ _ _ _ _ _ _ _ B H HD HN HS HR C1 F1 L1 C2 F2 ltac:(lia)) as (N & HX).
  exists N. intros fuel Fu. destruct (HX fuel Fu) as (d & A1 & A2). exists d. eexists. split; [exact A1|]. split; [exact A2|].
  fold sz. assert (SZ : 0 < sz) by (unfold sz, sec_bytes; destruct (major =? 3); lia).
  pose proof (mini_sizes data sz roots l SZ F1 (chain_nonneg _ _ _ C2) F2) as ZM.
  set (mb := map _ l) in *.
  assert (LM : List.length mb = List.length l) by (apply map_length).
  assert (LB : (zlen l - 1) * 64 < size <= zlen l * 64 /\ (zlen l = 0 -> size = 0)) by (unfold sectors_for in L2; lia).
  assert (CC : concat (pieces size mb ++ repeat [] (Z.to_nat (1 + size / 64) - List.length l)) = ztake size (concat mb)).
  { rewrite concat_app, pieces_concat by lia. rewrite concat_empties. apply app_nil_r. }
  split; [|split; [exact CC|]].
  - apply good_pieces.
    + eapply pieces_nonempty; [|exact ZM|]; [lia|]. rewrite LM. unfold zlen in LB. lia.
    + unfold sectors_for in L2. unfold zlen in L2. lia.
    + destruct l as [|i l]; [|subst mb; cbn [map pieces app]; discriminate]. cbn [map pieces app List.length].
      rewrite zlen_nil in LB. replace size with 0 by lia. discriminate.
  - rewrite CC, zlen_ztake; [reflexivity|]. rewrite (zlen_concat _ _ ZM). unfold zlen in *. rewrite LM. lia.
Qed.
Theorem C37_read_all : forall data sp major fat1 fat2 mini firstdir es name start size rstart rsize roots l sizes,
  let sz := sec_bytes major in
  bytes_ok data -> cfb_header data major fat1 fat2 mini firstdir -> dir_at data major firstdir es ->
  first_named es name start size -> 0 <= size < 4096 ->
  root_entry es rstart rsize -> chain (fat_of data sz (fat1 ++ fat2)) rstart roots -> Forall (in_file data sz) roots ->
  zlen roots = sectors_for rsize sz ->
  chain (minifat_of data sz mini) start l -> Forall (fun i => (i + 1) * 64 <= zlen roots * sz) l ->
  zlen l = sectors_for size 64 -> (forall i, 0 < sizes i) ->
  exists N, forall fuel, (N <= fuel)%nat ->
    (d <- load fuel (mkSl data sp) ;; r <- doc_open fuel d (string_of_runes name) ;;
     sr_read_all (Z.to_nat (size + 1)) sizes r []) =
    Ok (ztake size (concat (map (mini_sector (concat (map (sector data sz) roots))) l))).
Proof.
  intros data sp major fat1 fat2 mini firstdir es name start size rstart rsize roots l sizes sz B H HD HN HS HR C1 F1 L1 C2 F2 L2 HZ.
  destruct (C37_mini_stream_bytes data sp _ _ _ _ _ _ _ _ _ _ _ _ _ B H HD HN HS HR C1 F1 L1 C2 F2 L2) as (N & HX).
  exists N. intros fuel Fu. destruct (HX fuel Fu) as (d & sd & A1 & A2 & A3 & A4 & A5).
  rewrite A1. cbn [bind]. rewrite A2. cbn [bind]. fold sz in A4. rewrite <- A4, <- A5. apply C34_read_all_new; auto.
Qed.

(** Unlike C36, a mini chain that ends early is not reported: Open succeeds and the stream is
    shorter than its size. *)
Theorem C37_short_mini_chain_refuted : forall data sp major fat1 fat2 mini firstdir es name start size rstart rsize roots l,
  let sz := sec_bytes major in
  bytes_ok data -> cfb_header data major fat1 fat2 mini firstdir -> dir_at data major firstdir es ->
  first_named es name start size -> 0 <= size < 4096 ->
  root_entry es rstart rsize -> chain (fat_of data sz (fat1 ++ fat2)) rstart roots -> Forall (in_file data sz) roots ->
  zlen roots = sectors_for rsize sz ->
  chain (minifat_of data sz mini) start l -> Forall (fun i => (i + 1) * 64 <= zlen roots * sz) l ->
  zlen l * 64 < size ->
  exists N, forall fuel, (N <= fuel)%nat -> exists d sd,
    load fuel (mkSl data sp) = Ok d /\
    doc_open fuel d (string_of_runes name) = Ok (new_sreader sd) /\
    concat sd = concat (map (mini_sector (concat (map (sector data sz) roots))) l) /\ zlen (concat sd) < size.
Proof.
  intros data sp major fat1 fat2 mini firstdir es name start size rstart rsize roots l sz B H HD HN HS HR C1 F1 L1 C2 F2 L2.
  destruct (mini_general data sp _ _ _ _ _ _ _ _ _ _ _ _ _ B H HD HN HS HR C1 F1 L1 C2 F2 ltac:(unfold sectors_for; lia)) as (N & HX).
  exists N. intros fuel Fu. destruct (HX fuel Fu) as (d & A1 & A2). exists d. eexists. split; [exact A1|]. split; [exact A2|].
  fold sz. assert (SZ : 0 < sz) by (unfold sz, sec_bytes; destruct (major =? 3); lia).
  pose proof (mini_sizes data sz roots l SZ F1 (chain_nonneg _ _ _ C2) F2) as ZM.
  set (mb := map _ l) in *.
  assert (LM : zlen mb = zlen l) by (apply zlen_map).
  rewrite concat_app, pieces_concat, concat_empties, app_nil_r by lia.
  rewrite ztake_all by (rewrite (zlen_concat _ _ ZM), LM; lia). rewrite (zlen_concat _ _ ZM), LM. auto.
Qed.

(** ** C38 *)
Lemma read_entries_err : forall n l acc e, read_entries n l acc <> Err e.
Proof.
  induction n; intros l acc e; cbn [read_entries]; [discriminate|]. unfold le32.
  destruct l as [|a [|b [|c [|d l]]]]; cbn [bind]; try discriminate. apply IHn.
Qed.
Lemma le32_err : forall l e, le32 l <> Err e.
Proof. intros [|a [|b [|c [|d l]]]] e; discriminate. Qed.
Lemma sl_from_err : forall s a e, sl_from s a <> Err e.
Proof. intros. unfold sl_from. destruct (_ && _); discriminate. Qed.
Lemma load_fat_err : forall data shift n sids acc e, load_fat data shift n sids acc = Err e -> e = EUnableToLoad.
Proof.
  intros data shift n sids. induction sids as [|s r IH]; intros acc e; cbn [load_fat]; [discriminate|].
  destruct (s =? secFree); [discriminate|]. destruct (_ <=? _); [congruence|].
  destruct (sl_from _ _) as [x|?| |] eqn:E; cbn [bind]; try discriminate; [|exfalso; eapply sl_from_err; eauto].
  destruct (read_entries _ _ _) as [[y z]|?| |] eqn:E2; cbn [bind]; try discriminate; [|exfalso; eapply read_entries_err; eauto].
  apply IH.
Qed.
Lemma difat_entries_err : forall data shift n m l acc e, difat_entries data shift n m l acc = Err e -> e = EUnableToLoad.
Proof.
  intros data shift n m. induction m as [|m IH]; intros l acc e; cbn [difat_entries]; [discriminate|].
  destruct (le32 l) as [v|?| |] eqn:E0; cbn [bind]; try discriminate; [|exfalso; eapply le32_err; eauto].
  destruct (_ || _); [apply IH|]. destruct (_ <=? _); [congruence|].
  destruct (sl_from _ _) as [x|?| |] eqn:E; cbn [bind]; try discriminate; [|exfalso; eapply sl_from_err; eauto].
  destruct (read_entries _ _ _) as [[y z]|?| |] eqn:E2; cbn [bind]; try discriminate; [|exfalso; eapply read_entries_err; eauto].
  apply IH.
Qed.
Lemma difat_loop_err : forall fuel data shift n s acc e, difat_loop fuel data shift n s acc = Err e -> e = EUnableToLoad.
Proof.
  induction fuel; intros data shift n s acc e; cbn [difat_loop]; (destruct (s =? secEndOfChain); [discriminate|]); [discriminate|].
  destruct (sl_from _ _) as [x|?| |] eqn:E; cbn [bind]; try discriminate; [|exfalso; eapply sl_from_err; eauto].
  destruct (difat_entries _ _ _ _ _ _) as [[y z]|?| |] eqn:E2; cbn [bind]; try discriminate.
  - destruct (le32 z) as [v|?| |] eqn:E0; cbn [bind]; try discriminate; [|exfalso; eapply le32_err; eauto]. apply IHfuel.
  - intros [= ->]. eapply difat_entries_err; eauto.
Qed.
Lemma minifat_loop_err : forall fuel data shift n num s acc e, minifat_loop fuel data shift n num s acc = Err e -> e = EUnableToLoad.
Proof.
  induction fuel; intros data shift n num s acc e; cbn [minifat_loop]; (destruct (s =? secEndOfChain); [discriminate|]); [discriminate|].
  destruct (_ <=? _); [congruence|].
  destruct (sl_from _ _) as [x|?| |] eqn:E; cbn [bind]; try discriminate; [|exfalso; eapply sl_from_err; eauto].
  destruct (read_entries _ _ _) as [[y z]|?| |] eqn:E2; cbn [bind]; try discriminate; [|exfalso; eapply read_entries_err; eauto].
  destruct (_ <=? _); [discriminate|].
  destruct (le32 z) as [v|?| |] eqn:E0; cbn [bind]; try discriminate; [|exfalso; eapply le32_err; eauto]. apply IHfuel.
Qed.

(** Loading reports "not in format" exactly for contents under 512 bytes, without the
    signature, with the wrong byte order mark, or with a non-zero class id. *)
Theorem C38_not_in_format : forall fuel data sp,
  load fuel (mkSl data sp) = Err ENotInFormat <->
  zlen data < 512 \/ field data 0 8 <> 16220472316735377360 \/ field data 28 2 <> 65534 \/
  field data 8 8 <> 0 \/ field data 16 8 <> 0.
Proof.
  intros fuel data sp. unfold load. cbn [dat]. cbv zeta.
  destruct (Z.ltb_spec (zlen data) 512) as [L|L].
  { assert (E : read_header data = zero_header) by (unfold read_header; destruct (Z.ltb_spec (zlen data) 512); [reflexivity|lia]).
    rewrite E. cbn. tauto. }
  assert (E : h_signature (read_header data) = field data 0 8 /\ h_byteorder (read_header data) = field data 28 2 /\
    h_class0 (read_header data) = field data 8 8 /\ h_class1 (read_header data) = field data 16 8).
  { unfold read_header. destruct (Z.ltb_spec (zlen data) 512); [lia|].
    cbn [h_signature h_byteorder h_class0 h_class1]. rewrite !rd64_field, rd16_field by lia. auto. }
  destruct E as (Ea & Eb & Ec & Ed). rewrite Ea, Eb, Ec, Ed. set (h := read_header data).
  destruct (Z.eqb_spec (field data 0 8) 16220472316735377360) as [E1|E1]; [|cbn [negb]; tauto]. cbn [negb].
  destruct (Z.eqb_spec (field data 28 2) 65534) as [E2|E2]; [|cbn [negb]; tauto]. cbn [negb].
  destruct (Z.eqb_spec (field data 8 8) 0) as [E3|E3]; [|cbn [negb andb]; tauto].
  destruct (Z.eqb_spec (field data 16 8) 0) as [E4|E4]; [|cbn [negb andb]; tauto]. cbn [negb andb].
  split; [|lia]. intros H. exfalso. revert H.
  destruct (negb _); [discriminate|]. destruct (negb _); [discriminate|]. destruct (_ && _); [discriminate|].
  destruct (_ && _); [discriminate|]. destruct (_ && _); [discriminate|]. destruct (negb _); [discriminate|].
  destruct (negb _); [discriminate|]. destruct (_ || _); [discriminate|].
  destruct (load_fat _ _ _ _ _) as [f1|e| |] eqn:LF; cbn [bind]; try discriminate.
  2: { intros [= ->]. apply load_fat_err in LF. discriminate. }
  destruct (if 0 <? h_numdifat h then _ else _) as [f2|e| |] eqn:LD; cbn [bind]; try discriminate.
  2: { intros [= ->]. destruct (0 <? _); [|discriminate]. apply difat_loop_err in LD. discriminate. }
  destruct (minifat_loop _ _ _ _ _ _ _) as [f3|e| |] eqn:LM; cbn [bind]; try discriminate.
  2: { intros [= ->]. apply minifat_loop_err in LM. discriminate. }
  destruct (build_dirs _ _ _ _ _). discriminate.
Qed.

(** ** C39 *)
(** Following the DIFAT sectors from s stops: at the end mark, or at a sector that is not
    completely in the file, or after one more step.  (The next sector number is the last
    entry of the sector.) *)
Inductive difat_stops (data : bytes) (sz : Z) : Z -> Prop :=
| stop_end : difat_stops data sz ENDOFCHAIN
| stop_out : forall s, zlen data < u32 (1 + s) * sz + sz -> difat_stops data sz s
| stop_step : forall s, difat_stops data sz (field data (u32 (1 + s) * sz + (sz - 4)) 4) -> difat_stops data sz s.

Lemma difat_entries_rest : forall data shift n m l acc a r, difat_entries data shift n m l acc = Ok (a, r) ->
  r = zdrop (4 * Z.of_nat m) l.
Proof.
  intros data shift n m. induction m as [|m IH]; intros l acc a r; cbn [difat_entries].
  - intros [= <- <-]. rewrite zdrop_0. reflexivity.
  - destruct l as [|x [|y [|z [|w l]]]]; cbn [le32 bind]; try discriminate. change (zdrop 4 (x :: y :: z :: w :: l)) with l.
    assert (ZD : zdrop (4 * Z.of_nat (S m)) (x :: y :: z :: w :: l) = zdrop (4 * Z.of_nat m) l).
    { replace (4 * Z.of_nat (S m)) with (4 + 4 * Z.of_nat m) by lia. rewrite <- zdrop_zdrop by lia. reflexivity. }
    rewrite ZD. destruct (_ || _); [apply IH|]. destruct (_ <=? _); [discriminate|].
    destruct (sl_from _ _) as [sx|?| |]; cbn [bind]; try discriminate.
    destruct (read_entries _ _ _) as [[yy zz]|?| |]; cbn [bind]; try discriminate. apply IH.
Qed.
Lemma read_entries_fuel : forall n l acc, read_entries n l acc <> NoFuel.
Proof.
  induction n; intros l acc; cbn [read_entries]; [discriminate|]. unfold le32.
  destruct l as [|a [|b [|c [|d l]]]]; cbn [bind]; try discriminate. apply IHn.
Qed.
Lemma le32_fuel : forall l, le32 l <> NoFuel.
Proof. intros [|a [|b [|c [|d l]]]]; discriminate. Qed.
Lemma sl_from_fuel : forall s a, sl_from s a <> NoFuel.
Proof. intros. unfold sl_from. destruct (_ && _); discriminate. Qed.
Lemma load_fat_fuel : forall data shift n sids acc, load_fat data shift n sids acc <> NoFuel.
Proof.
  intros data shift n sids. induction sids as [|s r IH]; intros acc; cbn [load_fat]; [discriminate|].
  destruct (s =? secFree); [discriminate|]. destruct (_ <=? _); [discriminate|].
  destruct (sl_from _ _) as [x|?| |] eqn:E; cbn [bind]; try discriminate; [|exfalso; eapply sl_from_fuel; eauto].
  destruct (read_entries _ _ _) as [[y z]|?| |] eqn:E2; cbn [bind]; try discriminate; [|exfalso; eapply read_entries_fuel; eauto].
  apply IH.
Qed.
Lemma difat_entries_fuel : forall data shift n m l acc, difat_entries data shift n m l acc <> NoFuel.
Proof.
  intros data shift n m. induction m as [|m IH]; intros l acc; cbn [difat_entries]; [discriminate|].
  destruct (le32 l) as [v|?| |] eqn:E0; cbn [bind]; try discriminate; [|exfalso; eapply le32_fuel; eauto].
  destruct (_ || _); [apply IH|]. destruct (_ <=? _); [discriminate|].
  destruct (sl_from _ _) as [x|?| |] eqn:E; cbn [bind]; try discriminate; [|exfalso; eapply sl_from_fuel; eauto].
  destruct (read_entries _ _ _) as [[y z]|?| |] eqn:E2; cbn [bind]; try discriminate; [|exfalso; eapply read_entries_fuel; eauto].
  apply IH.
Qed.
Lemma difat_entries_short : forall data shift n m l acc, zlen l < 4 * Z.of_nat m ->
  forall a r, difat_entries data shift n m l acc <> Ok (a, r).
Proof.
  intros data shift n m. induction m as [|m IH]; intros l acc HL a r; [pose proof (zlen_nonneg _ l); lia|]. cbn [difat_entries].
  destruct l as [|x [|y [|z [|w l]]]]; cbn [le32 bind]; try discriminate. change (zdrop 4 (x :: y :: z :: w :: l)) with l.
  rewrite !zlen_cons in HL.
  destruct (_ || _); [apply IH; lia|]. destruct (_ <=? _); [discriminate|].
  destruct (sl_from _ _) as [sx|?| |]; cbn [bind]; try discriminate.
  destruct (read_entries _ _ _) as [[yy zz]|?| |]; cbn [bind]; try discriminate. apply IH; lia.
Qed.
Lemma difat_loop_stops : forall data sp shift s, 2 <= shift -> difat_stops data (2 ^ shift) s ->
  exists N, forall fuel acc, (N <= fuel)%nat -> difat_loop fuel (mkSl data sp) shift (Z.to_nat (2 ^ (shift - 2))) s acc <> NoFuel.
Proof.
  intros data sp shift s HS H.
  assert (P : 2 ^ shift = 4 * 2 ^ (shift - 2)) by (change 4 with (2 ^ 2); rewrite <- Z.pow_add_r by lia; f_equal; lia).
  assert (P0 : 1 <= 2 ^ (shift - 2)) by (assert (0 < 2 ^ (shift - 2)) by (apply Z.pow_pos_nonneg; lia); lia).
  induction H as [|s HO|s H IH].
  - exists O. intros fuel acc _. destruct fuel; discriminate.
  - exists 1%nat. intros [|fuel] acc Fu; [lia|]. cbn [difat_loop]. destruct (s =? secEndOfChain); [discriminate|].
    assert (U : 0 <= u32 (1 + s) * 2 ^ shift) by (apply Z.mul_nonneg_nonneg; [apply Z.mod_pos_bound; lia|lia]).
    unfold sec_off. destruct (sl_from _ _) as [x|?| |] eqn:E; cbn [bind]; try discriminate.
    2: { exfalso; eapply sl_from_fuel; eauto. }
    assert (X : dat x = zdrop (u32 (1 + s) * 2 ^ shift) data /\ u32 (1 + s) * 2 ^ shift <= zlen data).
    { revert E. unfold sl_from. unfold sl_len. cbn [dat spare]. destruct (_ && _) eqn:C; [|discriminate]. intros [= <-]. cbn [dat]. split; auto. lia. }
    destruct X as [X1 X2]. destruct (difat_entries _ _ _ _ _ _) as [[y z]|?| |] eqn:E2; cbn [bind]; try discriminate.
    2: { exfalso; eapply difat_entries_fuel; eauto. }
    apply difat_entries_rest in E2. assert (LZ : zlen z < 4).
    { subst z. rewrite X1. destruct (Z_le_gt_dec (4 * Z.of_nat (Z.to_nat (2 ^ (shift - 2)) - 1)) (zlen (zdrop (u32 (1 + s) * 2 ^ shift) data))) as [Q|Q].
      - rewrite zlen_zdrop by lia. rewrite zlen_zdrop by lia. lia.
      - rewrite zdrop_all by lia. reflexivity. }
    rewrite le32_short by auto. discriminate.
  - destruct IH as (N & IH). exists (S N). intros [|fuel] acc Fu; [lia|]. cbn [difat_loop]. destruct (s =? secEndOfChain); [discriminate|].
    assert (U : 0 <= u32 (1 + s) * 2 ^ shift) by (apply Z.mul_nonneg_nonneg; [apply Z.mod_pos_bound; lia|lia]).
    unfold sec_off. destruct (sl_from _ _) as [x|?| |] eqn:E; cbn [bind]; try discriminate.
    2: { exfalso; eapply sl_from_fuel; eauto. }
    assert (X : dat x = zdrop (u32 (1 + s) * 2 ^ shift) data /\ u32 (1 + s) * 2 ^ shift <= zlen data).
    { revert E. unfold sl_from. unfold sl_len. cbn [dat spare]. destruct (_ && _) eqn:C; [|discriminate]. intros [= <-]. cbn [dat]. split; auto. lia. }
    destruct X as [X1 X2]. destruct (difat_entries _ _ _ _ _ _) as [[y z]|?| |] eqn:E2; cbn [bind]; try discriminate.
    2: { exfalso; eapply difat_entries_fuel; eauto. }
    apply difat_entries_rest in E2. destruct (le32 z) as [v|?| |] eqn:E3; cbn [bind]; try discriminate.
    2: { exfalso; eapply le32_fuel; eauto. }
    replace v with (field data (u32 (1 + s) * 2 ^ shift + (2 ^ shift - 4)) 4); [apply IH; lia|].
    assert (LZ : 4 <= zlen z) by (destruct (Z_lt_le_dec (zlen z) 4); auto; rewrite le32_short in E3 by auto; discriminate).
    rewrite le32_val in E3 by auto. injection E3 as <-. unfold field. subst z. rewrite X1. rewrite zdrop_zdrop by lia. do 3 f_equal. lia.
Qed.

Lemma read_entries_grow : forall n l acc a r, read_entries n l acc = Ok (a, r) -> zlen a = zlen acc + Z.of_nat n.
Proof.
  induction n; intros l acc a r; cbn [read_entries].
  - intros [= <- _]. lia.
  - destruct (le32 l); cbn [bind]; try discriminate. intros H. apply IHn in H. rewrite zlen_app, zlen_cons, zlen_nil in H. lia.
Qed.
Lemma minifat_loop_fuel : forall fuel data shift n num s acc, (0 < n)%nat -> num - zlen acc < Z.of_nat fuel -> (0 < fuel)%nat ->
  minifat_loop fuel data shift n num s acc <> NoFuel.
Proof.
  induction fuel; intros data shift n num s acc Hn HF H0; [lia|]. cbn [minifat_loop]; destruct (s =? secEndOfChain); [discriminate|].
  destruct (_ <=? _); [discriminate|].
  destruct (sl_from _ _) as [x|?| |] eqn:E; cbn [bind]; try discriminate; [|exfalso; eapply sl_from_fuel; eauto].
  destruct (read_entries _ _ _) as [[y z]|?| |] eqn:E2; cbn [bind]; try discriminate; [|exfalso; eapply read_entries_fuel; eauto].
  apply read_entries_grow in E2. destruct (Z.leb_spec num (zlen y)); [discriminate|].
  destruct (le32 z) as [v|?| |] eqn:E0; cbn [bind]; try discriminate; [|exfalso; eapply le32_fuel; eauto]. apply IHfuel; lia.
Qed.

(** Loading terminates unless the header announces DIFAT sectors and following them goes on
    forever: every other content is loaded, rejected or panics after finitely many steps. *)
Lemma no_difat_loads : forall data sp,
  s32 (field data 72 4) <= 0 \/ difat_stops data (2 ^ field data 30 2) (field data 68 4) ->
  exists N, forall fuel, (N <= fuel)%nat -> load fuel (mkSl data sp) <> NoFuel.
Proof.
  intros data sp HD.
  destruct (Z_lt_le_dec (zlen data) 512) as [L|L].
  { exists O. intros fuel _. rewrite (proj2 (C38_not_in_format fuel data sp)) by auto. discriminate. }
  set (h := read_header data).
  assert (E : h_shift h = field data 30 2 /\ h_numdifat h = s32 (field data 72 4) /\ h_firstdifat h = field data 68 4).
  { unfold h, read_header. destruct (Z.ltb_spec (zlen data) 512); [lia|].
    cbn [h_shift h_numdifat h_firstdifat]. rewrite !rd16_field, !rd32_field by lia. auto. }
  destruct E as (E1 & E2 & E3).
  assert (KK : exists N, forall fuel, (N <= fuel)%nat -> 9 <= h_shift h -> forall f1,
     (if 0 <? h_numdifat h then difat_loop fuel (mkSl data sp) (h_shift h) (Z.to_nat (2 ^ (h_shift h - 2))) (h_firstdifat h) f1 else Ok f1) <> NoFuel).
  { destruct (Z_lt_le_dec (h_shift h) 9); [exists O; intros; lia|].
    destruct (Z.ltb_spec 0 (h_numdifat h)) as [Q|Q]; [|exists O; discriminate].
    destruct HD as [HD|HD]; [lia|]. rewrite <- E1, <- E3 in HD.
    destruct (difat_loop_stops data sp (h_shift h) (h_firstdifat h) ltac:(lia) HD) as (N & HN). exists N. auto. }
  destruct KK as (N & KK). exists (N + Z.to_nat (h_numminifat h) + 1)%nat. intros fuel Fu. unfold load. cbn [dat]. cbv zeta. fold h.
  destruct (negb _); [discriminate|]. destruct (negb _); [discriminate|]. destruct (negb _); [discriminate|].
  destruct ((h_major h =? 3) || (h_major h =? 4)) eqn:F1; [|discriminate]. cbn [negb]. destruct (negb _); [discriminate|].
  destruct ((h_major h =? 3) && negb (h_shift h =? 9)) eqn:F2; [discriminate|].
  destruct ((h_major h =? 3) && negb (h_numdir h =? 0)); [discriminate|].
  destruct ((h_major h =? 4) && negb (h_shift h =? 12)) eqn:F3; [discriminate|].
  destruct (negb (h_minishift h =? 6)); [discriminate|]. destruct (negb (h_cutoff h =? 4096)); [discriminate|].
  destruct ((s32 (1 + h_numfat h) <? 0) || (s32 (1 + h_numminifat h) <? 0)); [discriminate|].
  destruct (load_fat _ _ _ _ _) as [f1|e| |] eqn:LF; cbn [bind]; try discriminate.
  2: { exfalso; eapply load_fat_fuel; eauto. }
  assert (SH : 9 <= h_shift h) by lia.
  destruct (if 0 <? h_numdifat h then _ else _) as [f2|e| |] eqn:LD; cbn [bind]; try discriminate.
  2: { exfalso. eapply KK; [| |exact LD]; lia. }
  destruct (minifat_loop _ _ _ _ _ _ _) as [f3|e| |] eqn:LM; cbn [bind]; try discriminate.
  2: { exfalso. eapply minifat_loop_fuel; [| | |exact LM].
       - assert (0 < 2 ^ (h_shift h - 2)) by (apply Z.pow_pos_nonneg; lia). lia.
       - rewrite zlen_nil. lia.
       - lia. }
  destruct (build_dirs _ _ _ _ _). discriminate.
Qed.

(** The full claim fails: in this 1024-byte file the only DIFAT sector points to itself, and
    loading never ends, whatever the number of steps. *)
Definition hdr_bytes (major numfat firstdir firstmini nummini firstdifat numdifat : Z) (fat1 : list Z) : bytes :=
  put64 16220472316735377360 ++ put64 0 ++ put64 0 ++ put16 62 ++ put16 major ++ put16 65534 ++
  put16 (if major =? 3 then 9 else 12) ++ put16 6 ++ repeat 0 6 ++ put32 0 ++ put32 numfat ++ put32 firstdir ++
  put32 0 ++ put32 4096 ++ put32 firstmini ++ put32 nummini ++ put32 firstdifat ++ put32 numdifat ++
  flat_map put32 fat1 ++ flat_map put32 (repeat FREESECT (109 - List.length fat1)).
Definition cyclic_difat_file : bytes :=
  hdr_bytes 3 0 ENDOFCHAIN ENDOFCHAIN 0 0 1 [] ++ flat_map put32 (repeat FREESECT 127) ++ put32 0.
Theorem C39_cyclic_difat_refuted : forall sp fuel, zlen cyclic_difat_file = 1024 /\ bytes_ok cyclic_difat_file /\
  load fuel (mkSl cyclic_difat_file sp) = NoFuel.
Proof.
  intros sp fuel. split; [vm_compute; reflexivity|]. split.
  { apply Forall_forall. assert (F : forallb (fun b => (0 <=? b) && (b <? 256)) cyclic_difat_file = true) by (vm_compute; reflexivity).
    intros x Hx. rewrite forallb_forall in F. specialize (F x Hx). lia. }
  assert (LP : forall fuel acc, difat_loop fuel (mkSl cyclic_difat_file sp) 9 128 0 acc = NoFuel).
  { induction fuel0; intros acc; cbn [difat_loop]; [reflexivity|]. change (0 =? secEndOfChain) with false. cbn iota.
    rewrite sl_from_ok by (vm_compute; split; discriminate). cbn [bind dat].
    assert (EN : forall m l acc, l = flat_map put32 (repeat FREESECT m) ++ put32 0 ->
      difat_entries (mkSl cyclic_difat_file sp) 9 128 m l acc = Ok (acc, put32 0)).
    { induction m; intros l acc0 ->; cbn [difat_entries repeat flat_map]; [reflexivity|].
      rewrite <- app_assoc. rewrite le32_put32 by (unfold FREESECT; lia). cbn [bind].
      change (FREESECT =? secFree) with true. cbn [orb]. apply IHm. reflexivity. }
    rewrite (EN (128 - 1)%nat) by (vm_compute; reflexivity). cbn [bind]. change (le32 (put32 0)) with (Ok 0). cbn [bind]. apply IHfuel0. }
  assert (RH : read_header cyclic_difat_file = mkHdr 16220472316735377360 0 0 62 3 65534 9 6 (repeat 0 6) 0 0 ENDOFCHAIN 4096 ENDOFCHAIN 0 0 1
            (repeat FREESECT 109)) by (vm_compute; reflexivity).
  unfold load. cbn [dat]. rewrite RH.
  cbn [h_signature h_class0 h_class1 h_major h_byteorder h_shift h_minishift h_reserved h_numdir h_numfat h_firstdir h_cutoff h_numdifat h_firstdifat h_difat h_firstminifat h_numminifat].
  change (16220472316735377360 =? 16220472316735377360) with true. change (65534 =? 65534) with true. change (0 =? 0) with true.
  change (3 =? 3) with true. change (forallb (Z.eqb 0) (repeat 0 6)) with true. change (9 =? 9) with true. change (3 =? 4) with false.
  change (6 =? 6) with true. change (4096 =? 4096) with true. cbn [negb andb orb].
  change (s32 (1 + 0)) with 1. change (1 <? 0) with false. cbn [orb].
  change (Z.to_nat (2 ^ (9 - 2))) with 128%nat.
  assert (LF : load_fat (mkSl cyclic_difat_file sp) 9 128 (repeat FREESECT 109) [] = Ok []) by reflexivity.
  rewrite LF. cbn [bind]. change (0 <? 1) with true. cbn iota. rewrite LP. reflexivity.
Qed.

(** ** C40 *)
(** A mini FAT of one sector is loaded (C37 covers it end to end).  But whenever the header's
    number of mini FAT sectors is at most the number of entries in one sector, loading stops
    after the first sector: a mini FAT of 2 to 128 sectors is never loaded completely. *)
Theorem C40_only_first_sector_refuted : forall fuel data sp d, bytes_ok data ->
  load fuel (mkSl data sp) = Ok d ->
  let sz := 2 ^ field data 30 2 in
  s32 (field data 64 4) <= sz / 4 ->
  (field data 60 4 = ENDOFCHAIN /\ d_minifat d = []) \/
  d_minifat d = words (ztake sz (zdrop (u32 (1 + field data 60 4) * sz) data)) /\ zlen (d_minifat d) = sz / 4.
Proof.
  intros fuel data sp d B H sz HN. destruct (load_inv _ _ _ H B) as (_ & _ & SG & _ & _ & _ & SH & _ & _ & _ & _ & _ & ML & _).
  cbn [dat] in *. set (h := read_header data) in *.
  destruct (Z_lt_le_dec (zlen data) 512) as [L|L].
  { unfold h, read_header in SG. destruct (Z.ltb_spec (zlen data) 512); [discriminate|lia]. }
  assert (E : h_shift h = field data 30 2 /\ h_numminifat h = s32 (field data 64 4) /\ h_firstminifat h = field data 60 4).
  { unfold h, read_header. destruct (Z.ltb_spec (zlen data) 512); [lia|].
    cbn [h_shift h_numminifat h_firstminifat]. rewrite !rd16_field, !rd32_field by lia. auto. }
  destruct E as (E1 & E2 & E3). rewrite E2, E3 in ML. subst sz. rewrite <- E1 in HN |- *.
  assert (SZ : 2 ^ h_shift h = 512 /\ 2 ^ (h_shift h - 2) = 128 \/ 2 ^ h_shift h = 4096 /\ 2 ^ (h_shift h - 2) = 1024).
  { destruct SH as [-> | ->]; [left|right]; split; reflexivity. }
  unfold minifat_loop in ML. destruct fuel as [|fuel]; fold minifat_loop in ML.
  { unfold secEndOfChain in ML. fold ENDOFCHAIN in ML. destruct (Z.eqb_spec (field data 60 4) ENDOFCHAIN); [left|discriminate]. split; congruence. }
  unfold secEndOfChain in ML. fold ENDOFCHAIN in ML.
  destruct (Z.eqb_spec (field data 60 4) ENDOFCHAIN); [left; split; congruence|]. right.
  destruct (_ <=? _); [discriminate|].
  destruct (sl_from _ _) as [x|?| |] eqn:E; cbn [bind] in ML; try discriminate.
  destruct (read_entries _ _ _) as [[y z]|?| |] eqn:ER; cbn [bind] in ML; try discriminate.
  pose proof (read_entries_grow _ _ _ _ _ ER) as G. rewrite zlen_nil in G.
  assert (Y : y = d_minifat d).
  { destruct (Z.leb_spec (s32 (field data 64 4)) (zlen y)) as [Q|Q]; [congruence|]. exfalso. lia. }
  subst y. split; [|lia].
  assert (X : dat x = zdrop (u32 (1 + field data 60 4) * 2 ^ h_shift h) data).
  { revert E. unfold sl_from, sl_len, sec_off. cbn [dat spare]. destruct (_ && _) eqn:C; [|discriminate]. intros [= <-]. reflexivity. }
  rewrite X in ER. clear - ER SZ.
  destruct (Z_lt_le_dec (zlen (zdrop (u32 (1 + field data 60 4) * 2 ^ h_shift h) data)) (4 * Z.of_nat (Z.to_nat (2 ^ (h_shift h - 2))))) as [Q|Q].
  - rewrite read_entries_short in ER by auto. discriminate.
  - rewrite read_entries_spec in ER by auto. injection ER as <- _. cbn [app]. do 2 f_equal. lia.
Qed.
(** So every stream whose mini chain starts in a later sector of the mini FAT makes Open
    panic instead of returning its bytes. *)
Theorem C40_later_entries_panic_refuted : forall d start size, 0 <= size ->
  0 <= h_shift (d_header d) -> 0 <= h_minishift (d_header d) -> 0 <= d_mssize d ->
  zlen (d_minifat d) <= start < FREESECT - 1 ->
  exists N, forall fuel, (N <= fuel)%nat -> get_mini_stream_reader fuel d start size = Panic.
Proof.
  intros d start size H0 S1 S2 HM HS.
  assert (Z1 : 0 < sec_size d) by (unfold sec_size; apply Z.pow_pos_nonneg; lia).
  assert (Q1 : 0 <= d_mssize d / sec_size d) by (apply Z.div_pos; lia).
  exists (Z.to_nat (3 + d_mssize d / sec_size d)). intros fuel Fu. unfold get_mini_stream_reader.
  assert (NE : is_end start = false) by (unfold is_end, secEndOfChain, secFree, FREESECT in *; lia).
  pose proof (root_loop_fuel d fuel (d_msstart d) (d_mssize d) 0 (repeat nil_slice (Z.to_nat (1 + d_mssize d / sec_size d)))) as RF.
  assert (RE : forall fu fsid fsize x sd e, root_loop fu d fsid fsize x sd <> Err e).
  { induction fu; intros; cbn [root_loop]; destruct (is_end fsid); try discriminate.
    unfold sl_range. destruct (_ && _ && _); cbn [bind]; try discriminate.
    match goal with |- context [if ?b then _ else _] => destruct b end.
    - unfold sl_to, sl_range. destruct (_ && _); cbn [bind]; try discriminate.
      unfold set_idx. destruct (_ && _); cbn [bind]; try discriminate. unfold idx; destruct (0 <=? _); cbn [bind]; try discriminate; destruct (nth_error _ _); cbn [bind]; try discriminate; try apply IHfu.
    - cbn [bind]. unfold set_idx. destruct (_ && _); cbn [bind]; try discriminate. unfold idx; destruct (0 <=? _); cbn [bind]; try discriminate; destruct (nth_error _ _); cbn [bind]; try discriminate; try apply IHfu. }
  destruct (root_loop _ _ _ _ _ _) as [fsd|e| |] eqn:ER; cbn [bind]; auto.
  - destruct fuel as [|fuel]; [lia|]. cbn [mini_loop]. rewrite NE.
    assert (IP : forall (A : Type) (l : list A) i, (exists v, idx l i = Ok v) \/ idx l i = Panic).
    { intros A l i. unfold idx. destruct (0 <=? i); auto. destruct (nth_error _ _); eauto. }
    destruct (IP _ fsd (start * mini_size d / sec_size d)) as [(v & Ev)|Ev]; rewrite Ev; cbn [bind]; auto.
    unfold sl_range. destruct (_ && _ && _); cbn [bind]; auto.
    match goal with |- context [if ?b then _ else _] => destruct b end;
      (unfold set_idx; destruct (_ && _); cbn [bind]; auto; rewrite idx_out by lia; reflexivity).
  - exfalso. eapply RE; eauto.
  - exfalso. apply RF; auto; unfold zlen; rewrite repeat_length; lia.
Qed.

(** ** C41 *)
(** In a well-formed file whose directory has at most four entries, List names exactly the
    stream entries, in order ... *)
Theorem C41_list : forall data sp major fat1 fat2 mini firstdir es, bytes_ok data ->
  cfb_header data major fat1 fat2 mini firstdir -> dir_at data major firstdir es ->
  exists N d, forall fuel, (N <= fuel)%nat -> load fuel (mkSl data sp) = Ok d /\
    doc_list (d_dir d) = Ok (map (fun '(n, _, _, _) => string_of_runes n) (filter (fun '(_, ty, _, _) => ty =? 2) es)).
Proof.
  intros data sp major fat1 fat2 mini firstdir es B H HD.
  destruct (loaded data sp _ _ _ _ _ _ B H HD) as (N & d & LD & _ & _ & _ & _ & _ & _ & _ & D8).
  exists N, d. intros fuel Fu. split; [auto|]. clear - D8. induction D8 as [|[[[n ty] st] sz] x es xs E D8 IH]; [reflexivity|].
  destruct E as (E1 & E2 & E3 & E4). cbn [doc_list filter]. rewrite E2. unfold typeStream. destruct (ty =? 2).
  - rewrite E1. cbn [bind]. rewrite IH. reflexivity.
  - apply IH.
Qed.
(** ... and for every file that loads, a listed stream is never reported as missing, and a
    name that is not listed always is. *)
Theorem C41_listed_is_found : forall fuel0 data d names, bytes_ok (dat data) -> load fuel0 data = Ok d ->
  doc_list (d_dir d) = Ok names -> forall name fuel, In name names -> doc_open fuel d name <> Err EStreamNotFound.
Proof.
  intros fuel0 data d names B H HL name fuel HI.
  destruct (load_inv _ _ _ H B) as (A & _ & _ & _ & _ & _ & A1 & A2 & A3 & _ & A4 & _).
  assert (CU : u64 (h_cutoff (d_header d)) = 4096) by (rewrite A, A3; reflexivity).
  unfold doc_open. clear - HL HI CU A4. revert names HL HI. induction (d_dir d) as [|e r IH]; intros names HL HI; cbn [doc_list] in HL.
  - injection HL as <-. destruct HI.
  - assert (A5 : forall e, In e r -> 0 <= de_size e) by (intros; apply A4; right; auto).
    pose proof (A4 e (or_introl eq_refl)) as SE.
    assert (G1 : forall st sz, get_mini_stream_reader fuel d st sz <> Err EStreamNotFound).
    { intros st sz. unfold get_mini_stream_reader.
      assert (RE : forall fu fsid fsize x sd e, root_loop fu d fsid fsize x sd <> Err e).
      { induction fu; intros; cbn [root_loop]; destruct (is_end fsid); try discriminate.
        unfold sl_range. destruct (_ && _ && _); cbn [bind]; try discriminate.
        match goal with |- context [if ?b then _ else _] => destruct b end.
        - unfold sl_to, sl_range. destruct (_ && _); cbn [bind]; try discriminate.
          unfold set_idx. destruct (_ && _); cbn [bind]; try discriminate. unfold idx; destruct (0 <=? _); cbn [bind]; try discriminate; destruct (nth_error _ _); cbn [bind]; try discriminate; try apply IHfu.
        - cbn [bind]. unfold set_idx. destruct (_ && _); cbn [bind]; try discriminate. unfold idx; destruct (0 <=? _); cbn [bind]; try discriminate; destruct (nth_error _ _); cbn [bind]; try discriminate; try apply IHfu. }
      assert (ME : forall fu fsd sid size x sd e, mini_loop fu d fsd sid size x sd <> Err e).
      { induction fu; intros; cbn [mini_loop]; destruct (is_end sid); try discriminate.
        unfold idx at 1. destruct (0 <=? _); cbn [bind]; try discriminate; destruct (nth_error _ _); cbn [bind]; try discriminate;
        (unfold sl_range; destruct (_ && _ && _); cbn [bind]; try discriminate;
        match goal with |- context [if ?b then _ else _] => destruct b end;
        unfold set_idx; destruct (_ && _); cbn [bind]; try discriminate; unfold idx; destruct (0 <=? _); cbn [bind]; try discriminate; destruct (nth_error _ _); cbn [bind]; try discriminate; try apply IHfu). }
      destruct (root_loop _ _ _ _ _ _) eqn:E1; cbn [bind]; try discriminate; [|exfalso; eapply RE; eauto].
      destruct (mini_loop _ _ _ _ _ _ _) eqn:E2; cbn [bind]; try discriminate. exfalso; eapply ME; eauto. }
    assert (G2 : forall st sz, get_stream_reader fuel d st sz <> Err EStreamNotFound).
    { intros st sz. unfold get_stream_reader.
      assert (SE' : forall fu sid size x sd e, stream_loop fu d sid size x sd = Err e -> e = ECorrupt).
      { induction fu; intros sid size x sd e0; cbn [stream_loop]; destruct (is_end sid); try discriminate.
        destruct (_ <? _); [congruence|].
        unfold sl_range. destruct (_ && _ && _); cbn [bind]; try discriminate.
        match goal with |- context [if ?b then (ztake _ _, _) else _] => destruct b end;
        unfold set_idx; destruct (_ && _); cbn [bind]; try discriminate; destruct (_ =? 0); try discriminate;
        unfold idx; destruct (0 <=? _); cbn [bind]; try discriminate; destruct (nth_error _ _); cbn [bind]; try discriminate; try apply IHfu. }
      destruct (stream_loop _ _ _ _ _ _) as [[a b]|e0| |] eqn:E1; cbn [bind]; try discriminate.
      - destruct (negb _); discriminate.
      - apply SE' in E1. subst. discriminate. }
    cbn [open_loop].
    destruct (de_type e =? typeStream) eqn:ET.
    + destruct (dir_string e) as [s|?| |]; cbn [bind] in HL |- *; try discriminate.
      destruct (doc_list r) as [l|?| |]; cbn [bind] in HL; try discriminate. injection HL as <-.
      rewrite andb_true_r. destruct (str_eqb s name) eqn:ES.
      * rewrite CU. destruct (Z.ltb_spec (de_size e) 4096); [auto|]. destruct (Z.eqb_spec (de_size e) 0); [lia|]. cbn [negb]. auto.
      * destruct HI as [<-|HI]; [rewrite str_eqb_refl in ES; discriminate|]. eapply IH; eauto.
    + destruct (dir_string e) as [s|er| |] eqn:DS; cbn [bind]; try discriminate.
      * rewrite andb_false_r. eapply IH; eauto.
      * unfold dir_string, substr in DS. repeat (match type of DS with context [if ?b then _ else _] => destruct b end; cbn [bind] in DS); discriminate.
Qed.
Theorem C41_unlisted_not_found : forall data sp major fat1 fat2 mini firstdir es name, bytes_ok data ->
  cfb_header data major fat1 fat2 mini firstdir -> dir_at data major firstdir es ->
  (forall n st sz, In (n, 2, st, sz) es -> string_of_runes n <> name) ->
  exists N d, forall fuel, (N <= fuel)%nat -> load fuel (mkSl data sp) = Ok d /\
    doc_open fuel d name = Err EStreamNotFound.
Proof.
  intros data sp major fat1 fat2 mini firstdir es name B H HD HN.
  destruct (loaded data sp _ _ _ _ _ _ B H HD) as (N & d & LD & _ & _ & _ & _ & _ & _ & _ & D8).
  exists N, d. intros fuel Fu. split; [auto|]. unfold doc_open. clear - D8 HN. induction D8 as [|[[[n ty] st] sz] x es xs E D8 IH]; [reflexivity|].
  destruct E as (E1 & E2 & E3 & E4). cbn [open_loop]. rewrite E1, E2. cbn [bind]. unfold typeStream.
  destruct (Z.eqb_spec ty 2) as [Q|Q].
  - clear E2. subst ty. destruct (str_eqb (string_of_runes n) name) eqn:ES.
    + apply str_eqb_eq in ES. exfalso. eapply HN; [left; reflexivity|auto].
    + cbn [andb]. apply IH. intros; eapply HN; right; eauto.
  - rewrite andb_false_r. apply IH. intros; eapply HN; right; eauto.
Qed.

(** No more than four entries are ever read ... *)
Theorem C41_at_most_four : forall fuel data d, bytes_ok (dat data) -> load fuel data = Ok d -> (List.length (d_dir d) <= 4)%nat.
Proof. intros fuel data d B H. destruct (load_inv _ _ _ H B) as (_ & _ & _ & _ & _ & _ & _ & _ & _ & _ & _ & A & _). auto. Qed.
(** ... so a stream in the fifth entry of a longer directory cannot be opened. *)
Theorem C41_fifth_entry_refuted : forall data sp major fat1 fat2 mini firstdir n es name start size rest, bytes_ok data ->
  cfb_header data major fat1 fat2 mini firstdir -> in_file data (sec_bytes major) firstdir ->
  directory n major (zdrop ((1 + firstdir) * sec_bytes major) data) (es ++ (name, 2, start, size) :: rest) ->
  List.length es = 4%nat -> (forall nm st sz, In (nm, 2, st, sz) es -> string_of_runes nm <> string_of_runes name) ->
  exists N d, forall fuel, (N <= fuel)%nat -> load fuel (mkSl data sp) = Ok d /\
    doc_open fuel d (string_of_runes name) = Err EStreamNotFound.
Proof.
  intros data sp major fat1 fat2 mini firstdir n es name start size rest B H I HD HL HN.
  eapply C41_unlisted_not_found; eauto. split; auto.
  revert HD. generalize (zdrop ((1 + firstdir) * sec_bytes major) data) as dd. rewrite <- HL. clear. revert n.
  induction es as [|[[[a b] c] e] es IH]; intros n dd HD; [exact Logic.I|].
  destruct n as [|n]; [destruct HD|]. cbn [app directory List.length] in *. destruct HD as [HD1 HD2]. split; auto. eapply IH; eauto.
Qed.
(** And a used entry with a zero name length before the stream makes Open panic. *)
Theorem C41_empty_name_refuted : forall fuel d name e pre post, d_dir d = e :: pre ++ post -> de_namelen e = 0 ->
  doc_open fuel d name = Panic.
Proof.
  intros fuel d name e pre post H E. unfold doc_open. rewrite H. cbn [open_loop].
  unfold dir_string. rewrite E. change ((0 mod 2 =? 1) || (64 <? 0)) with false. cbn iota.
  change (Z.quot 0 2) with 0. unfold substr at 1. pose proof (zlen_nonneg _ (de_name e)).
  assert (C : (0 <=? 0) && (0 <=? 0) && (0 <=? zlen (de_name e)) = true) by lia. rewrite C. reflexivity.
Qed.

(** ** A concrete file *)
(** FAT in sector 0, directory in 1, mini FAT in 2, mini stream in 3; "Book" has 4096 bytes in
    sectors 4, 6, 5, 7, 8, 9, 10, 11 (in this order), "Tiny" has 70 bytes in mini sectors 1, 0 *)
Definition ex_entry (name : list Z) (ty start size : Z) : bytes :=
  flat_map put16 name ++ repeat 0 (64 - 2 * List.length name) ++ put16 (2 * (zlen name + 1)) ++ [ty] ++
  repeat 0 49 ++ put32 start ++ put32 size ++ put32 0.
Definition ex_fat : list Z := [4294967293; ENDOFCHAIN; ENDOFCHAIN; ENDOFCHAIN; 6; 7; 5; 8; 9; 10; 11; ENDOFCHAIN] ++ repeat FREESECT 116.
Definition ex_minifat : list Z := [ENDOFCHAIN; 0] ++ repeat FREESECT 126.
Definition ex_root : list Z := bs "Root Entry".
Definition ex_book : list Z := bs "Book".
Definition ex_tiny : list Z := bs "Tiny".
Definition ex_file : bytes :=
  hdr_bytes 3 1 1 2 1 ENDOFCHAIN 0 [0] ++ flat_map put32 ex_fat ++
  (ex_entry ex_root 5 3 512 ++ ex_entry ex_book 2 4 4096 ++ ex_entry ex_tiny 2 1 70 ++ repeat 0 128) ++
  flat_map put32 ex_minifat ++
  (repeat 20 64 ++ repeat 21 64 ++ repeat 22 384) ++
  flat_map (fun k => repeat k 512) [4; 5; 6; 7; 8; 9; 10; 11].
Definition ex_es := [(ex_root, 5, 3, 512); (ex_book, 2, 4, 4096); (ex_tiny, 2, 1, 70)].

Lemma ex_bytes : bytes_ok ex_file.
Proof.
  assert (F : forallb (fun b => (0 <=? b) && (b <? 256)) ex_file = true) by (vm_compute; reflexivity).
  apply Forall_forall. intros x Hx. rewrite forallb_forall in F. specialize (F x Hx). lia.
Qed.
Lemma in_file_b : forall data sz s, (0 <=? s) && (s <? 4294967291) && ((2 + s) * sz <=? zlen data) = true -> in_file data sz s.
Proof. intros. unfold in_file. lia. Qed.
Ltac vmr := vm_compute; reflexivity.
Lemma ex_header : cfb_header ex_file 3 [0] [] (Some 2) 1.
Proof.
  constructor.
  - apply Z.leb_le. vmr.
  - vmr.
  - split; vmr.
  - split; [auto|vmr].
  - vmr.
  - vmr.
  - vmr.
  - vmr.
  - intros _. vmr.
  - split; vmr.
  - vmr.
  - vmr.
  - split; [vmr|split; [vmr|apply in_file_b; vmr]].
  - exists []. split; [vmr|]. split; [vmr|].
    replace (field ex_file 68 4) with ENDOFCHAIN by vmr. constructor.
  - apply Z.leb_le. vmr.
  - intros i Hi. assert (F : forallb (fun i => field ex_file (76 + 4 * Z.of_nat i) 4 =? nth i [0] FREESECT) (seq 0 109) = true) by vmr.
    rewrite forallb_forall in F. apply Z.eqb_eq. apply F. apply in_seq. lia.
  - constructor; [apply in_file_b; vmr|constructor].
Qed.
Lemma dir_entry_b : forall major d name ty start size,
  (128 <=? zlen d) && (zlen name <=? 31) && (field d 64 2 =? 2 * (zlen name + 1)) &&
  forallb (fun i => field d (2 * Z.of_nat i) 2 =? nth i name 0) (seq 0 (List.length name)) &&
  (field d (2 * zlen name) 2 =? 0) && forallb (fun u => (0 <? u) && (u <? 55296)) name &&
  (field d 66 1 =? ty) && negb (ty =? 0) && (field d 116 4 =? start) && (field d 120 (if major =? 3 then 4 else 8) =? size) = true ->
  dir_entry major d name ty start size.
Proof.
  intros major d name ty start size H. rewrite !andb_true_iff in H. destruct H as (((((((((A & B) & C) & D) & E) & F) & G) & I) & J) & K).
  constructor; try lia.
  - intros i Hi. rewrite forallb_forall in D. apply Z.eqb_eq. apply D. apply in_seq. lia.
  - apply Forall_forall. intros x Hx. rewrite forallb_forall in F. specialize (F x Hx). lia.
Qed.
Lemma ex_dir : dir_at ex_file 3 1 ex_es.
Proof.
  split; [apply in_file_b; vm_compute; reflexivity|]. unfold ex_es. cbn [directory].
  split; [apply dir_entry_b; vm_compute; reflexivity|]. split; [apply dir_entry_b; vm_compute; reflexivity|].
  split; [apply dir_entry_b; vm_compute; reflexivity|]. right. vm_compute. reflexivity.
Qed.
Lemma ex_fat_is : fat_of ex_file 512 ([0] ++ []) = ex_fat.
Proof. vm_compute. reflexivity. Qed.
Lemma ex_minifat_is : minifat_of ex_file 512 (Some 2) = ex_minifat.
Proof. vm_compute. reflexivity. Qed.

Example ex_C36 : forall sp sizes, (forall i, 0 < sizes i) -> exists N, forall fuel, (N <= fuel)%nat ->
  (d <- load fuel (mkSl ex_file sp) ;; r <- doc_open fuel d (bs "Book") ;; sr_read_all (Z.to_nat (4096 + 1)) sizes r []) =
  Ok (flat_map (fun k => repeat k 512) [4; 6; 5; 7; 8; 9; 10; 11]).
Proof.
  intros sp sizes HS.
  replace (flat_map (fun k => repeat k 512) [4; 6; 5; 7; 8; 9; 10; 11])
    with (ztake 4096 (concat (map (sector ex_file (sec_bytes 3)) (4 :: [6; 5; 7; 8; 9; 10; 11])))) by (vm_compute; reflexivity).
  apply (C36_read_all ex_file sp 3 [0] [] (Some 2) 1 ex_es ex_book 4 4096 [6; 5; 7; 8; 9; 10; 11] sizes ex_bytes ex_header ex_dir); auto; try lia.
  - exists [(ex_root, 5, 3, 512)], [(ex_tiny, 2, 1, 70)]. split; [reflexivity|]. intros n ty st sz [[= <- <- <- <-]|[]] Q. discriminate.
  - change (sec_bytes 3) with 512. rewrite ex_fat_is. cbn [walk]. repeat split; try lia; try reflexivity.
  - repeat (constructor; [apply in_file_b; vmr|]). constructor.
Qed.
Example ex_C37 : forall sp sizes, (forall i, 0 < sizes i) -> exists N, forall fuel, (N <= fuel)%nat ->
  (d <- load fuel (mkSl ex_file sp) ;; r <- doc_open fuel d (bs "Tiny") ;; sr_read_all (Z.to_nat (70 + 1)) sizes r []) =
  Ok (repeat 21 64 ++ repeat 20 6).
Proof.
  intros sp sizes HS.
  replace (repeat 21 64 ++ repeat 20 6)
    with (ztake 70 (concat (map (mini_sector (concat (map (sector ex_file (sec_bytes 3)) [3]))) [1; 0]))) by (vm_compute; reflexivity).
  assert (NE : forall s, 0 <= s < 1000 -> ~ end_mark s) by (unfold end_mark, ENDOFCHAIN, FREESECT; lia).
  apply (C37_read_all ex_file sp 3 [0] [] (Some 2) 1 ex_es ex_tiny 1 70 3 512 [3] [1; 0] sizes ex_bytes ex_header ex_dir); auto; try lia.
  - exists [(ex_root, 5, 3, 512); (ex_book, 2, 4, 4096)], []. split; [reflexivity|].
    intros n ty st sz [[= <- <- <- <-]|[[= <- <- <- <-]|[]]] Q; [discriminate|]. discriminate.
  - exists [], ex_root, [(ex_book, 2, 4, 4096); (ex_tiny, 2, 1, 70)]. split; [reflexivity|]. split; [lia|].
    intros n ty st sz [[= <- <- <- <-]|[[= <- <- <- <-]|[]]]; lia.
  - change (sec_bytes 3) with 512. rewrite ex_fat_is. eapply ch_step with (t := ENDOFCHAIN); [apply NE; lia|lia|reflexivity|]. constructor. left. reflexivity.
  - repeat (constructor; [apply in_file_b; vmr|]). constructor.
  - change (sec_bytes 3) with 512. rewrite ex_minifat_is. eapply ch_step with (t := 0); [apply NE; lia|lia|reflexivity|].
    eapply ch_step with (t := ENDOFCHAIN); [apply NE; lia|lia|reflexivity|]. constructor. left. reflexivity.
  - repeat (constructor; [apply Z.leb_le; vmr|]). constructor.
Qed.
(** the same file with a size of 4097 in the directory: the chain is short *)
Example ex_C36_short : chain ex_fat 4 [4; 6; 5; 7; 8; 9; 10; 11] /\ zlen [4; 6; 5; 7; 8; 9; 10; 11] * 512 < 4097.
Proof.
  split; [|vm_compute; reflexivity].
  assert (NE : forall s, 0 <= s < 1000 -> ~ end_mark s) by (unfold end_mark, ENDOFCHAIN, FREESECT; lia).
  repeat (eapply ch_step; [apply NE; lia|lia|reflexivity|]). constructor. left. reflexivity.
Qed.
Example ex_C38 : load 3 (mkSl (bs "PK") []) = Err ENotInFormat.
Proof. reflexivity. Qed.
Example ex_C41 : exists N d, forall fuel, (N <= fuel)%nat -> load fuel (mkSl ex_file []) = Ok d /\
  doc_list (d_dir d) = Ok [bs "Book"; bs "Tiny"].
Proof. apply (C41_list ex_file [] 3 [0] [] (Some 2) 1 ex_es ex_bytes ex_header ex_dir). Qed.

Print Assumptions C36_stream_bytes.
Print Assumptions C36_read_all.
Print Assumptions C36_short_chain.
Print Assumptions C36_terminates_loaded.
Print Assumptions C37_read_all.
Print Assumptions C37_short_mini_chain_refuted.
Print Assumptions C38_not_in_format.
Print Assumptions no_difat_loads.
Print Assumptions C39_cyclic_difat_refuted.
Print Assumptions C40_only_first_sector_refuted.
Print Assumptions C40_later_entries_panic_refuted.
Print Assumptions C41_list.
Print Assumptions C41_listed_is_found.
Print Assumptions C41_fifth_entry_refuted.
