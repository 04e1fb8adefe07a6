(** * P_crypto: C42 and C43, the RC4 decryptor. *)
From Verif Require Import GoBase GoCrypto L_base M_crypto S_crypto L_crypto.
From Coq Require Import ZifyBool.

Local Opaque md5_sum rc4_new rc4_next keystream.

(** A decryptor at a block boundary: its key, the number of the next block, and the bytes that
    can be read from it. *)
Definition ready (d : rc4w) (key : bytes) (block : Z) (out : bytes) : Prop := holds d key block out [].

(** any number of Write calls *)
Fixpoint write_all (d : rc4w) (chunks : list bytes) : res rc4w :=
  match chunks with
  | [] => Ok d
  | c :: r => d <- w_write d c ;; write_all d r
  end.

Lemma write_all_ok : forall chunks d key base o w, holds d key base o w ->
  exists d', write_all d chunks = Ok d' /\ holds d' key base o (w ++ concat chunks) /\ w_salt d' = w_salt d.
Proof.
  induction chunks as [|c chunks IH]; intros d key base o w H; cbn [write_all concat].
  - exists d. rewrite app_nil_r. auto.
  - destruct (write_ok d key base o w c H) as (d1 & E1 & H1 & S1). rewrite E1. cbn [bind].
    destruct (IH d1 key base o (w ++ c) H1) as (d2 & E2 & H2 & S2). exists d2. rewrite app_assoc. split; auto. split; auto. congruence.
Qed.

(** ** C42 *)
(** For every way of splitting the input into Write calls, the bytes available after Flush are
    those available before followed by the input XORed position by position with the RC4
    keystream of its 1024-byte block; the decryptor is then at the start of the next block. *)
Theorem C42_chunks : forall d key block out chunks, ready d key block out ->
  exists d1 d2, write_all d chunks = Ok d1 /\ w_flush d1 = Ok d2 /\
    w_buf d2 = out ++ crypt key (block * 1024) (concat chunks) /\
    ready d2 key (block + zlen (concat chunks) / 1024 + 1) (w_buf d2).
Proof.
  intros d key block out chunks H. destruct (write_all_ok chunks d key block out [] H) as (d1 & E1 & H1 & _).
  cbn [app] in H1. destruct (flush_ok _ _ _ _ _ H1) as (d2 & E2 & B & _ & H2). exists d1, d2. rewrite B. auto.
Qed.
Theorem C42_chunking_irrelevant : forall d key block out c1 c2, ready d key block out -> concat c1 = concat c2 ->
  exists x y x' y', write_all d c1 = Ok x /\ w_flush x = Ok x' /\ write_all d c2 = Ok y /\ w_flush y = Ok y' /\
    w_buf x' = w_buf y'.
Proof.
  intros d key block out c1 c2 H E. destruct (C42_chunks d key block out c1 H) as (x & x' & A1 & A2 & A3 & _).
  destruct (C42_chunks d key block out c2 H) as (y & y' & B1 & B2 & B3 & _). exists x, y, x', y'. rewrite A3, B3, E. auto 6.
Qed.
(** Which decryptors are ready: a new one, one after Reset at any moment, one after
    SetPassword. *)
Theorem C42_new_ready : forall data d, new_basic_rc4 data = Ok d ->
  ready d (base_key default_password (ztake 16 (zdrop 4 data))) 0 [] /\ zlen data = 52.
Proof.
  intros data d H. unfold new_basic_rc4 in H.
  destruct (zlen data =? 0); [discriminate|]. destruct (Z.ltb_spec (zlen data) 52); [discriminate|].
  destruct (le16 (zdrop 2 data)) as [m|?| |]; cbn [bind] in H; try discriminate.
  destruct (negb (m =? 1)); [discriminate|]. destruct (Z.eqb_spec (zlen data) 52) as [L|L]; [|discriminate]. cbn [negb] in H.
  set (salt := ztake 16 (zdrop 4 data)) in *.
  assert (LS : zlen salt = 16) by (unfold salt; rewrite zlen_ztake; [reflexivity|rewrite zlen_zdrop; lia]).
  assert (KS : generate_std97_key default_password salt = Ok (base_key default_password salt)).
  { apply key_spec; auto; [|discriminate].
    apply Forall_forall. intros x Hx. vm_compute in Hx. intuition lia. }
  unfold w_verify in H. cbn [w_reset w_bytes w_key w_salt] in H.
  set (d0 := mkW 0 0 (repeat 0 1024) [] None salt) in *. change (w_reset d0) with d0 in H.
  assert (K0 : key_is d0 (base_key default_password salt)).
  { split; [unfold base_key; rewrite md5_length; lia|]. right. split; [reflexivity|exact KS]. }
  destruct (start_block_ok d0 _ K0) as (d1 & E & K1 & A1 & A2 & A3 & A4 & A5). rewrite E in H. cbn [bind] in H.
  destruct (rc4_xor _ _) as [t1 c1]. destruct (rc4_xor _ _) as [t2 c2].
  destruct (list_eq_dec _ _ _); [|discriminate]. injection H as <-. split; auto.
  constructor; auto; try lia.
  - rewrite A3. reflexivity.
  - rewrite A2. reflexivity.
Qed.
Theorem C42_reset_ready : forall d key base o w, holds d key base o w -> ready (w_reset d) key 0 [].
Proof. intros d key base o w []. constructor; auto; try lia; try reflexivity. Qed.
Theorem C42_set_password_ready : forall d key block out pw, ready d key block out -> bytes_ok pw -> pw <> [] -> zlen (w_salt d) = 16 ->
  exists d', set_password d pw = Ok d' /\ ready d' (base_key pw (w_salt d)) block out.
Proof.
  intros d key block out pw H B N L. unfold set_password. rewrite key_spec by auto. cbn [bind]. eexists. split; [reflexivity|].
  destruct H. constructor; auto.
  split; [unfold base_key; rewrite md5_length; lia|]. left. reflexivity.
Qed.

(** ** C43 *)
(** Encrypting and decrypting are the same operation and cancel, at every stream position. *)
Theorem C43_involution : forall key pos data, crypt key pos (crypt key pos data) = data.
Proof. intros. apply crypt_crypt. Qed.
(** For every password and salt, every data and every split into Write calls: the decryptor
    opened with the matching FilePass structure returns the original data. *)
Theorem C43_decrypts : forall salt verifier data chunks, bytes_ok salt -> zlen salt = 16 -> zlen verifier = 16 ->
  concat chunks = crypt (base_key default_password salt) 0 data ->
  exists d d1 d2, new_basic_rc4 (rc4_header default_password salt verifier) = Ok d /\
    write_all d chunks = Ok d1 /\ w_flush d1 = Ok d2 /\ w_buf d2 = data.
Proof.
  intros salt verifier data chunks B LS LV HC.
  set (key := base_key default_password salt) in *.
  set (hdr := rc4_header default_password salt verifier).
  assert (LM : zlen (md5_sum verifier) = 16) by apply md5_length.
  assert (LH : zlen hdr = 52).
  { unfold hdr, rc4_header. rewrite !zlen_app, crypt_length, zlen_app, !zlen_put16, LS, LV, LM. reflexivity. }
  assert (KS : generate_std97_key default_password salt = Ok key).
  { apply key_spec; auto; [|discriminate].
    apply Forall_forall. intros x Hx. vm_compute in Hx. intuition lia. }
  assert (S1 : ztake 16 (zdrop 4 hdr) = salt).
  { unfold hdr, rc4_header. change (zdrop 4 (put16 1 ++ put16 1 ++ ?x)) with x. apply ztake_app_exact'. auto. }
  assert (S2 : zdrop 20 hdr = crypt key 0 (verifier ++ md5_sum verifier)).
  { replace (zdrop 20 hdr) with (zdrop 16 (zdrop 4 hdr)) by (rewrite zdrop_zdrop by lia; reflexivity).
    unfold hdr, rc4_header. change (zdrop 4 (put16 1 ++ put16 1 ++ ?x)) with x. apply zdrop_app_exact'. auto. }
  assert (NB : exists d, new_basic_rc4 hdr = Ok d).
  { unfold new_basic_rc4. rewrite LH. change (52 =? 0) with false. change (52 <? 52) with false. change (52 =? 52) with true.
    assert (LE : le16 (zdrop 2 hdr) = Ok 1) by reflexivity. rewrite LE. cbn [bind]. change (1 =? 1) with true. cbn [negb].
    rewrite S1. replace (zdrop 36 hdr) with (zdrop 16 (zdrop 20 hdr)) by (rewrite zdrop_zdrop by lia; reflexivity). rewrite S2.
    unfold w_verify. set (d0 := mkW 0 0 (repeat 0 1024) [] None salt). change (w_reset d0) with d0.
    assert (K0 : key_is d0 key).
    { split; [unfold key, base_key; rewrite md5_length; lia|]. right. split; [reflexivity|exact KS]. }
    destruct (start_block_ok d0 _ K0) as (d1 & E & _). rewrite E. cbn [bind].
    change (w_block d0) with (u32 0). set (c := rc4_new (block_key key (u32 0))).
    assert (RX : rc4_xor c (crypt key 0 (verifier ++ md5_sum verifier)) = rc4_xor c (ztake 16 (crypt key 0 (verifier ++ md5_sum verifier)) ++ zdrop 16 (crypt key 0 (verifier ++ md5_sum verifier)))) by (rewrite ztake_zdrop; reflexivity).
    rewrite rc4_xor_snd in RX.
    assert (FX : fst (rc4_xor c (crypt key 0 (verifier ++ md5_sum verifier))) = verifier ++ md5_sum verifier).
    { pose proof (crypt_block key 0 (crypt key 0 (verifier ++ md5_sum verifier))) as CB. change (0 * 1024) with 0 in CB.
      fold c in CB. rewrite <- CB; [apply crypt_crypt|lia|rewrite crypt_length, zlen_app; lia]. }
    rewrite RX in FX. cbn [fst] in FX.
    destruct (rc4_xor c (ztake 16 _)) as [t1 c1] eqn:X1. cbn [fst snd] in FX.
    assert (ZT : ztake 16 (zdrop 16 (crypt key 0 (verifier ++ md5_sum verifier))) = zdrop 16 (crypt key 0 (verifier ++ md5_sum verifier))).
    { apply ztake_all. rewrite zlen_zdrop; rewrite crypt_length, zlen_app; lia. }
    rewrite ZT. destruct (rc4_xor c1 _) as [t2 c2] eqn:X2. cbn [fst] in FX.
    assert (LT : zlen t1 = 16).
    { assert (F : fst (rc4_xor c (ztake 16 (crypt key 0 (verifier ++ md5_sum verifier)))) = t1) by (rewrite X1; reflexivity).
      rewrite <- F, rc4_xor_stream. unfold zipx, zlen. rewrite map_length, combine_length, keystream_length, Nat.min_id.
      fold (zlen (ztake 16 (crypt key 0 (verifier ++ md5_sum verifier)))). rewrite zlen_ztake; [reflexivity|]. rewrite crypt_length, zlen_app. lia. }
    assert (T12 : t1 = verifier /\ t2 = md5_sum verifier).
    { assert (T1 : t1 = verifier).
      { rewrite <- (ztake_app_exact' _ t1 t2 16) by auto. rewrite FX. apply ztake_app_exact'. auto. }
      split; auto. subst t1. apply app_inv_head in FX. auto. }
    destruct T12 as [-> ->]. destruct (list_eq_dec _ _ _) as [_|Q]; [eauto|congruence]. }
  destruct NB as (d & NB). exists d.
  destruct (C42_new_ready _ _ NB) as [R _]. rewrite S1 in R. fold key in R.
  destruct (C42_chunks d key 0 [] chunks R) as (d1 & d2 & E1 & E2 & E3 & _). exists d1, d2. repeat split; auto.
  rewrite E3, HC. cbn [app]. change (0 * 1024) with 0. apply crypt_crypt.
Qed.
(** ... and with any other password set on it. *)
Theorem C43_decrypts_password : forall d key pw data chunks, ready d key 0 [] -> bytes_ok pw -> pw <> [] -> zlen (w_salt d) = 16 ->
  concat chunks = crypt (base_key pw (w_salt d)) 0 data ->
  exists d0 d1 d2, set_password d pw = Ok d0 /\ write_all d0 chunks = Ok d1 /\ w_flush d1 = Ok d2 /\ w_buf d2 = data.
Proof.
  intros d key pw data chunks R B N L HC. destruct (C42_set_password_ready d key 0 [] pw R B N L) as (d0 & E0 & R0).
  destruct (C42_chunks d0 _ 0 [] chunks R0) as (d1 & d2 & E1 & E2 & E3 & _). exists d0, d1, d2. repeat split; auto.
  rewrite E3, HC. cbn [app]. change (0 * 1024) with 0. apply crypt_crypt.
Qed.
(** A FilePass structure is accepted exactly when it has 52 bytes, minor version 1, and a
    verifier whose hash matches: for a well-formed length and version, a changed hash or
    verifier is refused. *)
Theorem C43_rejects : forall salt everifier ehash, zlen salt = 16 -> zlen everifier = 16 -> zlen ehash = 16 -> forall major,
  (exists d, new_basic_rc4 (put16 major ++ put16 1 ++ salt ++ everifier ++ ehash) = Ok d) <->
  crypt (base_key default_password salt) 16 ehash = md5_sum (crypt (base_key default_password salt) 0 everifier).
Proof.
  intros salt ev eh LS LV LE major.
  set (key := base_key default_password salt) in *. set (hdr := put16 major ++ put16 1 ++ salt ++ ev ++ eh).
  assert (LH : zlen hdr = 52).
  { unfold hdr. rewrite !zlen_app, !zlen_put16, LS, LV, LE. reflexivity. }
  assert (KS : generate_std97_key default_password salt = Ok key).
  { apply key_spec; auto; [|discriminate].
    apply Forall_forall. intros x Hx. vm_compute in Hx. intuition lia. }
  assert (S0 : zdrop 4 hdr = salt ++ ev ++ eh) by reflexivity.
  assert (S1 : ztake 16 (zdrop 4 hdr) = salt) by (rewrite S0; apply ztake_app_exact'; auto).
  assert (S2 : zdrop 20 hdr = ev ++ eh).
  { replace (zdrop 20 hdr) with (zdrop 16 (zdrop 4 hdr)) by (rewrite zdrop_zdrop by lia; reflexivity). rewrite S0. apply zdrop_app_exact'. auto. }
  assert (S3 : zdrop 36 hdr = eh).
  { replace (zdrop 36 hdr) with (zdrop 16 (zdrop 20 hdr)) by (rewrite zdrop_zdrop by lia; reflexivity). rewrite S2. apply zdrop_app_exact'. auto. }
  unfold new_basic_rc4. rewrite LH. change (52 =? 0) with false. change (52 <? 52) with false. change (52 =? 52) with true.
  assert (LE16 : le16 (zdrop 2 hdr) = Ok 1) by reflexivity. rewrite LE16. cbn [bind]. change (1 =? 1) with true. cbn [negb].
  rewrite S1, S2, S3. rewrite (ztake_app_exact' _ ev eh) by auto. rewrite (ztake_all _ eh) by lia.
  unfold w_verify. set (d0 := mkW 0 0 (repeat 0 1024) [] None salt). change (w_reset d0) with d0.
  assert (K0 : key_is d0 key).
  { split; [unfold key, base_key; rewrite md5_length; lia|]. right. split; [reflexivity|exact KS]. }
  destruct (start_block_ok d0 _ K0) as (d1 & E & _). rewrite E. cbn [bind].
  change (w_block d0) with (u32 0). set (c := rc4_new (block_key key (u32 0))).
  pose proof (crypt_block key 0 (ev ++ eh) ltac:(lia) ltac:(rewrite zlen_app; lia)) as CB. change (0 * 1024) with 0 in CB. fold c in CB.
  rewrite crypt_app, rc4_xor_snd in CB. cbn [fst] in CB. rewrite LV in CB. change (0 + 16) with 16 in CB.
  destruct (rc4_xor c ev) as [t1 c1] eqn:X1. cbn [fst snd] in CB. destruct (rc4_xor c1 eh) as [t2 c2] eqn:X2. cbn [fst] in CB.
  assert (LT : zlen t1 = 16).
  { assert (F : fst (rc4_xor c ev) = t1) by (rewrite X1; reflexivity). rewrite <- F, rc4_xor_stream. unfold zipx, zlen.
    rewrite map_length, combine_length, keystream_length, Nat.min_id. unfold zlen in LV. auto. }
  assert (T1 : t1 = crypt key 0 ev).
  { rewrite <- (ztake_app_exact' _ t1 t2 16) by auto. rewrite <- CB. apply ztake_app_exact'. rewrite crypt_length. auto. }
  assert (T2 : t2 = crypt key 16 eh) by (subst t1; apply app_inv_head in CB; auto).
  subst t1 t2. destruct (list_eq_dec Z.eq_dec (md5_sum (crypt key 0 ev)) (crypt key 16 eh)) as [Q|Q].
  - split; [intros _; auto|intros _; eauto].
  - split; [intros (? & ?); discriminate|intros; congruence].
Qed.

(** ** examples *)
Local Transparent md5_sum rc4_new rc4_next keystream.
Definition ex_salt : bytes := map Z.of_nat (seq 1 16).
Definition ex_verifier : bytes := repeat 7 16.
(** a concrete FilePass structure is accepted, and text written in two pieces comes back *)
Example ex_C43 : exists d d1 d2, new_basic_rc4 (rc4_header default_password ex_salt ex_verifier) = Ok d /\
  write_all d [ztake 3 (crypt (base_key default_password ex_salt) 0 (bs "hello world")); zdrop 3 (crypt (base_key default_password ex_salt) 0 (bs "hello world"))] = Ok d1 /\
  w_flush d1 = Ok d2 /\ w_buf d2 = bs "hello world".
Proof.
  apply C43_decrypts.
  - apply Forall_forall. intros x Hx. vm_compute in Hx. intuition lia.
  - reflexivity.
  - reflexivity.
  - cbn [concat]. rewrite app_nil_r. apply ztake_zdrop.
Qed.
(** the cipher is not the identity: the first key bytes for this salt *)
Example ex_key_bytes : crypt (base_key default_password ex_salt) 0 [0; 0; 0; 0] <> [0; 0; 0; 0].
Proof. vm_compute. discriminate. Qed.

Print Assumptions C42_chunks.
Print Assumptions C42_chunking_irrelevant.
Print Assumptions C42_new_ready.
Print Assumptions C43_decrypts.
Print Assumptions C43_decrypts_password.
Print Assumptions C43_rejects.
