(** * P_loadsfile: C108 for grate.Open, and examples. *)
From Verif Require Import GoBase GoCrypto GoUnicode M_simple GoPath L_base M_grate S_grate L_grate P_grate M_slicereader S_simple L_simple P_simple M_cfb S_cfb L_cfb P_cfb M_crypto M_biff M_fmt M_formats M_sheet M_xls M_xlsx S_cell S_open M_open P_open S_cfbsays P_cfbsays P_cfbopens P_cfbfile S_crypto S_biff L_biff P_biff P_crypto S_table S_loads P_saysfile P_enc P_cipher P_loads.
From Coq Require Import Lia ZifyBool ZifyNat Permutation.

(** Opened as an XLS workbook: exactly the files taken for compound files whose tables lead to a
    content for the stream "Workbook", with names before it that can be looked at, and whose content
    can be loaded. *)
Theorem C108_opened_xls : forall sizes sp1 sp2 sp3 unzip order iter rd srt fn w, (forall i, 0 < sizes i) -> sorts_by_priority srt ->
  (forall data re, os_file w fn = FileData data re -> bytes_ok data) -> bytes_ok sp1 -> bytes_ok sp2 -> bytes_ok sp3 ->
  (exists fuel b w', open_file (registered srt (stock fuel sizes sp1 sp2 sp3 unzip order iter rd)) fn w = (Ok (SrcXls b), w')) <->
  (exists data raw, os_file w fn = FileData data None /\ accepted data /\ readable_upto data (bs "Workbook") /\
    stream_content data (data ++ sp1) (bs "Workbook") raw /\ loadable raw sp2 sp3).
Proof.
  intros sizes sp1 sp2 sp3 unzip order iter rd srt fn w HZ HS BD B1 B2 B3.
  assert (BR : forall data raw, os_file w fn = FileData data None -> stream_content data (data ++ sp1) (bs "Workbook") raw -> bytes_ok raw).
  { intros data raw F P. eapply content_bytes; [|exact P]. apply bytes_ok_app. split; [eapply BD; exact F|exact B1]. }
  split.
  - intros (fuel & b & w' & H). destruct (proj1 (C106_exact_open sizes sp1 sp2 sp3 unzip order iter rd srt fn w b HZ HS BD)) as (data & raw & F & A & R & P & L); [eauto|].
    exists data, raw. repeat (split; [assumption|]). apply C108_loads; eauto.
  - intros (data & raw & F & A & R & P & L). apply C108_loads in L; eauto. destruct L as (b & L).
    destruct (proj2 (C106_exact_open sizes sp1 sp2 sp3 unzip order iter rd srt fn w b HZ HS BD)) as (fuel & w' & H); [exists data, raw; auto 6|]. eauto.
Qed.

(** ** examples *)
Definition all_bytes (l : bytes) : bool := forallb (fun x => (0 <=? x) && (x <? 256)) l.
Lemma all_bytes_ok : forall l, all_bytes l = true -> bytes_ok l.
Proof. intros l H. unfold all_bytes in H. rewrite forallb_forall in H. apply Forall_forall. intros x I. specialize (H x I). lia. Qed.
(** the odd file of C104, and one whose name runs on behind its record *)
Example ex_C108_odd : loadable ex_odd [] [].
Proof. apply C108_loads; [apply all_bytes_ok; vm_compute; reflexivity|constructor|constructor|]. exists ex_odd_wb. vm_compute. reflexivity. Qed.
Example ex_C108_over : loadable ex_over [] [] /\ ~ loadable (ztake 34 ex_over) [] [] /\ loadable (ztake 34 ex_over) [7] [].
Proof.
  split; [|split].
  - apply C108_loads; [apply all_bytes_ok; vm_compute; reflexivity|constructor|constructor|]. eexists. vm_compute. reflexivity.
  - intros H. apply C108_loads in H; [|apply all_bytes_ok; vm_compute; reflexivity|constructor|constructor]. destruct H as (w & H). revert H. vm_compute. discriminate.
  - apply C108_loads; [apply all_bytes_ok; vm_compute; reflexivity|apply all_bytes_ok; vm_compute; reflexivity|constructor|]. eexists. vm_compute. reflexivity.
Qed.
(** no stream at all is a workbook without sheets; records before the first BOF record, a BOF
    record of another version and a record cut short are none *)
Example ex_C108_empty : loadable [] [] [].
Proof. left. exists [], []. split; [|split; [constructor|exact I]]. repeat split; [constructor|left; reflexivity]. Qed.
Example ex_C108_refused : ~ loadable (stream [(66, [0; 0]); bof16 5; (EOFR, [])]) [] [] /\ ~ loadable (stream [(BOF, put16 1280 ++ put16 5 ++ put16 0 ++ put16 1997 ++ repeat 0 8); (EOFR, [])]) [] [] /\
  ~ loadable (stream [bof16 5; (66, [0])]) [] [] /\ ~ loadable (stream [bof16 5] ++ [66; 0; 2; 0; 0]) [] [].
Proof.
  repeat split; (intros H; apply C108_loads in H; [|apply all_bytes_ok; vm_compute; reflexivity|constructor|constructor]; destruct H as (w & H); revert H; vm_compute; discriminate).
Qed.
(** an enciphered one with a BoundSheet8 record of no bytes, which is taken for four all the same:
    these stay clear, and what is read there is another record *)
Definition ex_bof : bytes := put16 1536 ++ put16 5 ++ put16 0 ++ put16 1997 ++ repeat 0 8.
Example ex_C108_enc : forall salt verifier, bytes_ok salt -> bytes_ok (rc4_filepass salt verifier) -> zlen salt = 16 -> zlen verifier = 16 ->
  loadable (stream [(BOF, ex_bof)] ++ enc_rec (FILEPASS, rc4_filepass salt verifier) ++ put16 133 ++ put16 0 ++ put16 10 ++ put16 0) [] [].
Proof.
  intros salt ver BS BP L1 L2. set (fp := rc4_filepass salt ver) in *. right. exists [(BOF, ex_bof)], fp, (put16 133 ++ put16 0 ++ put16 10 ++ put16 0), [(BOF, 16, ex_bof); (FILEPASS, 54, fp); (133, 0, put16 10 ++ put16 0)], [(BOF, ex_bof); (FILEPASS, fp); (133, []); (10, [])], [].
  assert (L54 : zlen fp = 54) by (unfold fp, rc4_filepass; rewrite zlen_app, rc4_header_len by assumption; reflexivity).
  assert (PO : pass_ok fp). { apply pass_iff; [exact BP|]. split; [unfold fp, rc4_filepass; apply le16_put16; lia|]. destruct (C43_decrypts salt ver [] [] BS L1 L2 eq_refl) as (d & _ & _ & N & _). exists d. exact N. }
  clearbody fp. split; [reflexivity|]. split; [constructor; [split; vm_compute; intuition congruence|constructor]|]. split; [constructor; [vm_compute; congruence|constructor]|]. split; [right; eauto|]. split; [exact PO|]. clear PO.
  split.
  { exists []. split; [unfold stream, enc_rec, piece_bytes; cbn [map concat fst snd]; rewrite L54, <- !app_assoc; cbn [app]; reflexivity|]. split; [|split; [vm_compute; congruence|intros _ cs' c E]].
    - repeat constructor; try (vm_compute; intuition congruence); exact L54.
    - assert (Q : last [(BOF, 16, ex_bof); (FILEPASS, 54, fp); (133, 0, put16 10 ++ put16 0)] c = c) by (rewrite E; apply last_last). cbn [last] in Q. subst c. discriminate. }
  cbv zeta. set (key := base_key _ _). clearbody key. split.
  - split; [|split; [reflexivity|split]].
    + cbn [deciphered]. change (clear_prefix BOF 16) with 16. change (clear_prefix FILEPASS 54) with 54. change (clear_prefix 133 0) with 4. rewrite (ztake_all _ fp), (zdrop_all _ fp) by lia. rewrite (ztake_all _ ex_bof), (zdrop_all _ ex_bof) by (vm_compute; congruence). rewrite (ztake_all _ (put16 10 ++ put16 0)), (zdrop_all _ (put16 10 ++ put16 0)) by (vm_compute; congruence).
      cbn [crypt]. unfold stream, enc_rec. cbn [map concat fst snd]. rewrite L54. change (zlen ex_bof) with 16. change (zlen (@nil Z)) with 0. rewrite !app_nil_r, <- !app_assoc. reflexivity.
    + repeat constructor; cbn [fst snd]; try (vm_compute; congruence); lia.
    + right. eauto.
  - cbn [all_readable]. split; [|split; [|split; [|split; [|exact I]]]].
    + right. split; [|repeat split; intros; exfalso; unfold BOF in *; lia]. intros _. rewrite !zlen_app. change (zlen ex_bof) with 16. split; [pose proof (zlen_nonneg _ (stream [(FILEPASS, fp); (133, []); (10, [])])); pose proof (zlen_nonneg _ (@nil Z)); lia|]. split; [|right]; reflexivity.
    + right. repeat split; intros; exfalso; unfold FILEPASS in *; lia.
    + left. reflexivity.
    + left. reflexivity.
Qed.
Print Assumptions C108_deciphers.
Print Assumptions C108_loads.
Print Assumptions C108_opened_xls.
