(** * L_plain: no error of loading an XLS workbook is "not in this format". *)
From Verif Require Import GoBase GoUnicode GoCrypto M_grate M_crypto M_biff M_fmt M_xlstr M_xls.
Definition plain {A} (r : res A) : Prop := match r with Err e => errors_is e ENotInFormat = false | _ => True end.
Lemma plain_bind : forall A B (x : res A) (f : A -> res B), plain x -> (forall a, plain (f a)) -> plain (bind x f).
Proof. intros A B [a|e| |] f H F; cbn [bind]; auto. Qed.
Lemma plain_idx : forall A (l : list A) i, plain (idx l i). Proof. intros. unfold idx. destruct (0 <=? i); [|exact I]. destruct (nth_error _ _); exact I. Qed.
Lemma plain_set : forall A (l : list A) i x, plain (set_idx l i x). Proof. intros. unfold set_idx. destruct (_ && _); exact I. Qed.
Lemma plain_range : forall s a b, plain (sl_range s a b). Proof. intros. unfold sl_range. destruct (_ && _ && _); exact I. Qed.
Lemma plain_from : forall s a, plain (sl_from s a). Proof. intros. unfold sl_from. destruct (_ && _); exact I. Qed.
Lemma plain_le16 : forall l, plain (le16 l). Proof. intros. unfold le16. destruct l as [|a [|b l]]; exact I. Qed.
Lemma plain_le32 : forall l, plain (le32 l). Proof. intros. unfold le32. destruct l as [|a [|b [|c [|d l]]]]; exact I. Qed.
Ltac pl := repeat first [exact I | reflexivity | assumption | apply plain_idx | apply plain_set | apply plain_range | apply plain_from | apply plain_le16 | apply plain_le32
  | apply plain_bind; [|intros ?]
  | match goal with
    | |- plain (if ?b then _ else _) => destruct b
    | |- plain (let '(_, _) := ?x in _) => destruct x
    | |- plain (sl_to _ _) => unfold sl_to
    | |- plain (sl_idx _ _) => unfold sl_idx
    end ].
Lemma plain_le64 : forall l, plain (le64 l).
Proof. intros. unfold le64. do 8 (destruct l as [|? l]; [exact I|]). exact I. Qed.
Lemma plain_bof : forall d, plain (check_bof d).
Proof. intros. unfold check_bof. pl; apply plain_le64. Qed.
Lemma plain_units : forall n raw, plain (units_cap n raw).
Proof. induction n as [|n IH]; intros raw; cbn [units_cap]; pl. apply IH. Qed.
Lemma plain_decode : forall k cch flags raw, plain (decode_units k cch flags raw).
Proof. intros. unfold decode_units. pl. apply plain_units. Qed.
Lemma plain_long : forall raw, plain (decode_long raw).
Proof. intros. unfold decode_long. pl. apply plain_decode. Qed.
Lemma plain_short : forall raw, plain (decode_short raw).
Proof. intros. unfold decode_short. pl. apply plain_decode. Qed.
Lemma plain_chars : forall n recs i wide buf, plain (sst_chars n recs i wide buf).
Proof. induction n as [|n IH]; intros recs i wide buf; cbn [sst_chars]; pl; apply IH. Qed.
Lemma plain_skip : forall fuel n recs i buf, plain (sst_skip fuel n recs i buf).
Proof. induction fuel as [|fuel IH]; intros n recs i buf; cbn [sst_skip]; pl. apply IH. Qed.
Lemma plain_string : forall recs i buf, plain (sst_string recs i buf).
Proof. intros. unfold sst_string. pl; first [apply plain_chars|apply plain_skip]. Qed.
Lemma plain_loop : forall fuel recs i buf all, plain (M_xlstr.sst_loop fuel recs i buf all).
Proof. induction fuel as [|fuel IH]; intros recs i buf all; cbn [M_xlstr.sst_loop]; pl; first [apply IH|apply plain_string|apply plain_chars|apply plain_skip]. Qed.
Lemma plain_sst : forall recs, plain (parse_sst recs).
Proof. intros. unfold parse_sst. pl. apply plain_loop. Qed.
Lemma plain_rec : forall w r rest, plain (load_rec w r rest).
Proof. intros. unfold load_rec. cbv zeta. pl; first [apply plain_sst|apply plain_loop|apply plain_le64|apply plain_bof|apply plain_decode|apply plain_long|apply plain_short]. Qed.
Lemma plain_streams : forall ss w, plain (load_streams w ss).
Proof. induction ss as [|l ss IH]; intros w; cbn [load_streams]; [exact I|]. apply plain_bind; [|intros; apply IH]. revert w. induction l as [|r l IL]; intros w; cbn [load_recs]; [exact I|]. apply plain_bind; [apply plain_rec|intros; apply IL]. Qed.
Lemma plain_next : forall raw, plain (next_record raw).
Proof. intros. unfold next_record. pl. Qed.
Lemma plain_split : forall fuel raw b st, plain (split_loop fuel raw b st).
Proof.
  induction fuel as [|fuel IH]; intros raw b st; cbn [split_loop]; [exact I|]. pose proof (plain_next raw) as P. destruct (next_record raw) as [[nr no]|e| |]; [|destruct e; exact I || exact P|exact I..].
  cbv zeta. unfold store. pl. apply IH.
Qed.
Lemma plain_start : forall d, plain (start_block d).
Proof.
  intros. unfold start_block. apply plain_bind.
  - destruct (w_key d); [exact I|]. unfold set_password, generate_std97_key. pl.
  - intros a. destruct (w_key a); [|exact I]. apply plain_bind; [unfold substr; pl|intros; exact I].
Qed.
Lemma plain_flush : forall d, plain (w_flush d).
Proof. intros. unfold w_flush. cbv zeta. match goal with |- plain (if ?b then _ else _) => destruct b; [exact I|] end. apply plain_bind; [apply plain_start|]. intros [d' c]. destruct (rc4_xor _ _). exact I. Qed.
Lemma plain_write : forall fuel d data, plain (write_loop fuel d data).
Proof.
  induction fuel as [|fuel IH]; intros d data; cbn [write_loop]; (destruct (zlen data <=? 0); [exact I|]); [exact I|]. cbv zeta.
  repeat match goal with |- plain (if ?b then _ else _) => destruct b end; try exact I; try apply IH. all: apply plain_bind; [|intros; apply IH]. all: repeat match goal with |- plain (if ?b then _ else _) => destruct b end; try exact I; apply plain_flush.
Qed.
Lemma plain_rc4 : forall data, plain (new_basic_rc4 data).
Proof.
  intros. unfold new_basic_rc4. repeat match goal with |- plain (if ?b then _ else _) => destruct b; [reflexivity|] end. apply plain_bind; [apply plain_le16|]. intros a. repeat match goal with |- plain (if ?b then _ else _) => destruct b; [reflexivity|] end.
  unfold w_verify. cbv zeta. apply plain_bind; [apply plain_start|]. intros [d c]. destruct (rc4_xor c _) as [t1 c1]. destruct (rc4_xor c1 _). destruct (list_eq_dec _ _ _); [exact I|reflexivity].
Qed.
Lemma plain_decrypt : forall fuel raw pos dec ovs, plain (decrypt_loop fuel raw pos dec ovs).
Proof. induction fuel as [|fuel IH]; intros raw pos dec ovs; cbn [decrypt_loop]; [exact I|]. unfold w_write, zeros_to. cbv zeta. pl; first [apply IH|apply plain_write]. Qed.
Lemma plain_overlays : forall os l, plain (apply_overlays l os).
Proof. induction os as [|o os IH]; intros l; cbn [apply_overlays]; [exact I|]. unfold apply_overlay, put16_at, copy_at. cbv zeta. pl. apply IH. Qed.
Lemma plain_workbook : forall raw sp, plain (load_workbook raw sp).
Proof.
  intros. unfold load_workbook, split_workbook, split_stream, decrypt_stream. apply plain_bind; [|intros; apply plain_streams]. apply plain_bind; [apply plain_split|]. intros [st|data]; [exact I|].
  repeat first [apply plain_rc4|apply plain_decrypt|apply plain_flush|apply plain_overlays|apply plain_split|apply plain_write|progress pl].
  all: try match goal with |- plain (w_write _ _) => unfold w_write; cbv zeta; apply plain_bind; [apply plain_write|intros; exact I] end.
  all: try match goal with |- plain (match ?x with _ => _ end) => destruct x; exact I end.
  all: try (unfold zeros_to; pl).
Qed.
