(** * P_slicereader: C34 and C35. *)
From Verif Require Import GoBase L_base M_slicereader S_slicereader L_slicereader.

(** ** C34 *)
(** After any history of reads and in-range seeks that leaves the reader at position p: Read
    with a non-empty buffer returns some bytes (at least one, at most the buffer), exactly the
    bytes of the concatenation at p, and moves there; at the end it returns io.EOF and stays. *)
Theorem C34_read : forall data s p n, good_slices data -> reaches data s p -> 0 < n ->
  0 <= p <= zlen (concat data) /\
  (p < zlen (concat data) -> exists b s', sr_read s n = Ok (b, None, s') /\ 0 < zlen b <= n /\
     b = ztake (zlen b) (zdrop p (concat data)) /\ reaches data s' (p + zlen b)) /\
  (p = zlen (concat data) -> sr_read s n = Ok ([], Some EEOF, s)).
Proof.
  intros data s p n G H Hn. destruct (read_spec data s p n G (reaches_at _ _ _ G H) Hn) as (A & B & C).
  split; auto. split; auto. intros L. destruct (A L) as (b & s' & A1 & A2 & A3 & _). exists b, s'.
  repeat split; auto; try lia. eapply re_read; eauto.
Qed.

(** Reading on to the end from any reached position, with any sequence of non-empty buffers,
    returns exactly the remaining bytes. *)
Theorem C34_read_all : forall data s p sizes, good_slices data -> reaches data s p ->
  (forall i, 0 < sizes i) ->
  forall fuel, (Z.to_nat (zlen (concat data) - p) < fuel)%nat -> forall acc,
  sr_read_all fuel sizes s acc = Ok (acc ++ zdrop p (concat data)).
Proof.
  intros data s p sizes G H Hs fuel. revert s p H. induction fuel as [|fuel IH]; intros s p H HF acc; [lia|].
  cbn [sr_read_all]. destruct (C34_read data s p (sizes fuel) G H (Hs fuel)) as (PR & A & B).
  destruct (Z.eq_dec p (zlen (concat data))) as [Q|Q].
  - rewrite (B Q). cbn [bind]. rewrite app_nil_r, zdrop_all by lia. rewrite app_nil_r. reflexivity.
  - destruct A as (b & s' & A1 & A2 & A3 & A4); [lia|]. rewrite A1. cbn [bind].
    rewrite (IH s' (p + zlen b) A4) by lia. rewrite <- app_assoc. do 2 f_equal.
    rewrite <- (ztake_zdrop _ (zlen b) (zdrop p (concat data))). rewrite <- A3. rewrite zdrop_zdrop by lia. f_equal; try (f_equal; lia).
Qed.
Theorem C34_read_all_new : forall data sizes, good_slices data -> (forall i, 0 < sizes i) ->
  sr_read_all (Z.to_nat (zlen (concat data) + 1)) sizes (new_sreader data) [] = Ok (concat data).
Proof.
  intros data sizes G Hs. rewrite (C34_read_all data _ 0 sizes G (re_new data) Hs).
  - rewrite zdrop_0. reflexivity.
  - pose proof (zlen_nonneg _ (concat data)). lia.
Qed.

(** The condition on the slices is needed: an empty slice in the middle reads as the end. *)
Theorem C34_empty_slice_refuted : forall a b, a <> [] -> forall n, zlen a <= n ->
  exists s, sr_read (new_sreader [a; []; b]) n = Ok (a, None, s) /\ forall m, sr_read s m = Ok ([], Some EEOF, s).
Proof.
  intros a b Ha n Hn. assert (0 < zlen a). { destruct a; [congruence|]. rewrite zlen_cons. pose proof (zlen_nonneg _ a). lia. }
  exists (mkSR [] [a; []; b] 1 0). split.
  - unfold sr_read. cbn [new_sreader sr_data sr_index sr_offset sr_csize]. change (zlen [a; []; b]) with 3.
    change (3 <=? 0) with false. cbv iota. change (idx [a; []; b] 0) with (Ok a). cbn [bind].
    destruct (Z.leb_spec 0 (zlen a)); [|lia]. cbn [andb]. change (0 <=? 0) with true. cbn [andb]. rewrite zdrop_0, ztake_all by lia.
    destruct (Z.ltb_spec 0 (zlen a)); [|lia]. rewrite Z.add_0_l, Z.eqb_refl. reflexivity.
  - intros m. unfold sr_read. cbn [sr_data sr_index sr_offset sr_csize]. change (zlen [a; []; b]) with 3. change (3 <=? 1) with false. cbv iota.
    change (idx [a; []; b] 1) with (Ok (@nil Z)). cbn [bind]. change ((0 <=? 0) && (0 <=? zlen (@nil Z))) with true. cbv iota.
    unfold zdrop, ztake. rewrite skipn_nil, firstn_nil. reflexivity.
Qed.

(** ** C35 *)
(** Seek to any supported position returns that position and moves there. *)
Theorem C35_seek : forall data s p off wh fuel, good_slices data -> reaches data s p ->
  seek_in_range (zlen (concat data)) p off wh -> (List.length data + 2 < fuel)%nat ->
  exists s', sr_seek fuel s off wh = Ok (seek_target (zlen (concat data)) p off wh, None, s') /\
    reaches data s' (seek_target (zlen (concat data)) p off wh).
Proof.
  intros data s p off wh fuel G H R HF. pose proof (reaches_at _ _ _ G H) as AT.
  destruct (seek_spec data s p off wh fuel G AT HF) as [(s1 & A & B)|[(s1 & A & B)|[A B]]].
  - exists s1. split; auto. eapply re_seek; eauto.
  - exfalso. unfold sr_seek in A.
    destruct (read_spec data s p 1 G AT ltac:(lia)) as (_ & _ & PR).
    destruct (if zlen _ <=? sr_index _ then _ else _) as [s0| | |]; cbn [bind] in A; try discriminate.
    destruct (idx _ (sr_index s0)) as [c| | |]; cbn [bind] in A; try discriminate.
    destruct ((off =? 0) && _); try discriminate. unfold seek_in_range, seek_target in R.
    assert (L : forall t w s2, ('(p, s) <- seek_loop fuel s2 w t ;; Ok (p, @None gerr, s)) <> Ok (-1, Some (ELeaf 2001), s1)).
    { intros t w s2. destruct (seek_loop fuel s2 w t) as [[x y]| | |]; cbn [bind]; discriminate. }
    destruct (Z.eqb_spec wh SeekStart).
    + destruct (Z.ltb_spec off 0); [lia|]. eapply L; eauto.
    + destruct (Z.eqb_spec wh SeekEnd).
      * destruct (Z.ltb_spec 0 off); [lia|].
        destruct (idx (sr_data s0) _) as [la| | |]; cbn [bind] in A; try discriminate.
        destruct (idx _ (zlen (sr_data s0) - 1)) as [lc| | |]; cbn [bind] in A; try discriminate. eapply L; eauto.
      * eapply L; eauto.
  - contradiction.
Qed.

(** Seek always terminates: on every reader over any slices, empty ones included, after any
    calls, the loop runs at most len(Data)+2 times. *)
Theorem C35_terminates : forall data s off wh fuel, reachable_reader data s ->
  (List.length data + 2 < fuel)%nat -> sr_seek fuel s off wh <> NoFuel.
Proof. intros data s off wh fuel H HF. apply (seek_wf data s off wh fuel (reachable_wf _ _ H)). auto. Qed.

(** The edges: going back to exactly the start from inside the first slice panics, although
    the position exists; so does going to the end of a stream whose last slice is not empty. *)
Theorem C35_back_to_start_refuted : forall a rest n, 0 < n < zlen a ->
  exists s, sr_read (new_sreader (a :: rest)) n = Ok (ztake n a, None, s) /\
    forall fuel, (List.length (a :: rest) + 2 < fuel)%nat -> sr_seek fuel s (- n) SeekCurrent = Panic.
Proof.
  intros a rest n Hn. exists (mkSR [] (a :: rest) 0 n).
  assert (HZ : zlen (a :: rest) = zlen rest + 1) by (rewrite zlen_cons; lia). pose proof (zlen_nonneg _ rest).
  split.
  - unfold sr_read. cbn [new_sreader sr_data sr_index sr_offset sr_csize]. rewrite HZ.
    destruct (Z.leb_spec (zlen rest + 1) 0); [lia|]. rewrite idx_0. cbn [bind].
    change (0 <=? 0) with true. destruct (Z.leb_spec 0 (zlen a)); [|lia]. cbn [andb]. rewrite zdrop_0, zlen_ztake by lia.
    destruct (Z.ltb_spec 0 n); [|lia]. rewrite Z.add_0_l. destruct (Z.eqb_spec n (zlen a)); [lia|]. reflexivity.
  - intros fuel HF. unfold sr_seek. cbn [sr_data sr_index sr_offset sr_csize].
    rewrite zlen_nil. destruct (Z.eqb_spec 0 (zlen (a :: rest))); [lia|]. cbn [sr_index sr_data].
    rewrite csizes_len, HZ. destruct (Z.leb_spec (zlen rest + 1) 0); [lia|]. cbn [bind sr_index sr_offset].
    change (idx (csizes 0 (a :: rest)) 0) with (Ok 0). cbn [bind]. destruct (Z.eqb_spec (- n) 0); [lia|]. cbn [andb].
    change (SeekCurrent =? SeekStart) with false. change (SeekCurrent =? SeekEnd) with false. cbv iota.
    replace (- n + (n + 0)) with 0 by lia. rewrite Z.add_0_r.
    assert (C0 : zlen (concat (@nil bytes)) = 0) by reflexivity. cbn [List.length] in HF.
    destruct (seek_down (a :: rest) [] a rest n n 0 fuel eq_refl ltac:(lia) ltac:(lia) ltac:(lia) ltac:(cbn [List.length]; lia))
      as [(s' & A & (pr & c & po & E & E' & B))|[A B]].
    + (* impossible: the loop cannot stop at 0 *)
      exfalso. destruct fuel as [|fuel]; [lia|]. cbn [seek_loop sr_csize sr_data sr_index] in A. destruct (Z.eqb_spec n 0); [lia|].
      rewrite zlen_nil in A. change (idx (csizes 0 (a :: rest)) 0) with (Ok 0) in A. rewrite idx_0 in A. cbn [bind] in A.
      change (0 <? 0) with false in A. cbn [andb] in A. destruct (Z.ltb_spec 0 n); [|lia]. change (0 - 1) with (-1) in A. rewrite idx_m1 in A. discriminate.
    + rewrite zlen_nil in A. rewrite A. reflexivity.
Qed.
Theorem C35_to_end_refuted : forall data fuel, good_slices data -> (forall p, data <> p ++ [[]]) ->
  (List.length data + 2 < fuel)%nat ->
  sr_seek fuel (new_sreader data) (zlen (concat data)) SeekStart = Panic.
Proof.
  intros data fuel G HE HF. pose proof G as [G0 G1]. destruct data as [|d0 dr]; [congruence|].
  unfold sr_seek. cbn [new_sreader sr_data sr_index sr_offset sr_csize]. rewrite zlen_nil.
  assert (HZ : zlen (d0 :: dr) = zlen dr + 1) by (rewrite zlen_cons; lia). pose proof (zlen_nonneg _ dr).
  destruct (Z.eqb_spec 0 (zlen (d0 :: dr))); [lia|]. cbn [sr_index sr_data].
  rewrite csizes_len, HZ. destruct (Z.leb_spec (zlen dr + 1) 0); [lia|]. cbn [bind sr_index sr_offset].
  change (idx (csizes 0 (d0 :: dr)) 0) with (Ok 0). cbn [bind].
  assert (TP : 0 < zlen (concat (d0 :: dr))).
  { assert (d0 <> []). { destruct dr as [|d1 dr]; [|apply (G1 [] d0 (d1 :: dr)); auto; discriminate].
      intros ->. apply (HE []). reflexivity. }
    destruct d0; [congruence|]. cbn [concat]. rewrite zlen_app, zlen_cons. pose proof (zlen_nonneg _ d0). pose proof (zlen_nonneg _ (concat dr)). lia. }
  destruct (Z.eqb_spec (zlen (concat (d0 :: dr))) 0); [lia|]. cbn [andb]. change (SeekStart =? SeekStart) with true. cbv iota.
  destruct (Z.ltb_spec (zlen (concat (d0 :: dr))) 0); [lia|].
  assert (C0 : zlen (concat (@nil bytes)) = 0) by reflexivity. cbn [List.length] in HF.
  destruct (seek_up (d0 :: dr) dr [] d0 0 0 (zlen (concat (d0 :: dr))) fuel eq_refl ltac:(lia) ltac:(lia) ltac:(lia)) as [(s' & A & _ & [B|[_ [p B]]])|[A _]]; try lia.
  - exfalso. apply (HE p B).
  - assert (A' : ('(p, s) <- seek_loop fuel (mkSR (csizes 0 (d0 :: dr)) (d0 :: dr) 0 0) (zlen (concat (d0 :: dr))) 0 ;; Ok (p, @None gerr, s)) = Panic)
      by (rewrite zlen_nil in A; rewrite A; reflexivity). exact A'.
Qed.

(** ** witnesses *)
Definition ex_slices : list bytes := [[1;2;3]; [4;5]; [6]; []].
Example ex_good : good_slices ex_slices.
Proof.
  split; [discriminate|]. intros pre cur post E H.
  destruct pre as [|a1 [|a2 [|a3 [|a4 pre]]]]; injection E as E1; subst; try discriminate; try congruence.
  all: repeat match goal with H : _ = _ :: _ |- _ => injection H as ?; subst end; try discriminate; try congruence.
  destruct pre; discriminate.
Qed.
Example ex_C34 : sr_read_all 10 (fun _ => 2) (new_sreader ex_slices) [] = Ok [1;2;3;4;5;6].
Proof. vm_compute. reflexivity. Qed.
Example ex_C35 : exists s, sr_seek 10 (new_sreader ex_slices) 4 SeekStart = Ok (4, None, s) /\
  sr_read s 9 = Ok ([5], None, mkSR [0;3;5;6] ex_slices 2 0) /\ seek_in_range (zlen (concat ex_slices)) 0 4 SeekStart.
Proof. eexists. split; [vm_compute; reflexivity|]. split; [vm_compute; reflexivity|]. left. vm_compute. auto. Qed.
Example ex_C35_b : sr_seek 10 (mkSR [] ex_slices 0 2) (-2) SeekCurrent = Panic /\
  sr_seek 10 (new_sreader [[1;2];[3]]) 3 SeekStart = Panic.
Proof. split; vm_compute; reflexivity. Qed.

Print Assumptions C34_read.
Print Assumptions C34_read_all.
Print Assumptions C34_read_all_new.
Print Assumptions C34_empty_slice_refuted.
Print Assumptions C35_seek.
Print Assumptions C35_terminates.
Print Assumptions C35_back_to_start_refuted.
Print Assumptions C35_to_end_refuted.
