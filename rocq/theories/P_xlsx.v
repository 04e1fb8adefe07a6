(** * P_xlsx: properties C57 and C58 (references), C59 (shared strings), C60 (styles), C61 (cells
    and whole workbooks), C62 (white space), C63 (hyperlinks), C64 (Get), C69 (malformed files),
    C70 (absolute targets), C71 (dimensions), and the XLSX parts of C32, C51, C52 and C55. *)
From Verif Require Import GoBase L_base GoPath GoFloat L_float GoUnicode GoTime M_grate M_value M_dates M_fmt M_formats M_cell M_sheet M_xls M_xlsx S_cell L_cell S_sheet L_sheet S_grid L_grid S_xls L_xls L_xlsbook P_xls
  S_xlsx L_xlsxref L_xlsx L_xlsxpkg P_sheet.
From Coq Require Import Lia ZifyBool ZifyNat Permutation.
Local Opaque f_of_bits fdiv f_of_Z put set_value fx_add parse_float.

(** ** C57 *)
Theorem C57_round_trip : forall c r, coord_ok c -> coord_ok r -> ref_to_indexes (a1 c r) = Ok (c, r).
Proof. exact ref_a1. Qed.
Theorem C57_letters_distinct : forall a b, 0 <= a -> 0 <= b -> letters a = letters b -> a = b.
Proof. exact letters_inj. Qed.
Example ex_C57 : map letters [0; 25; 26; 51; 52; 701; 702; 16383] = map bs ["A"; "Z"; "AA"; "AZ"; "BA"; "ZZ"; "AAA"; "XFD"]%string /\ a1 16383 1048575 = bs "XFD1048576" /\
  coord_ok 16383 /\ coord_ok 1048575 /\ ref_to_indexes (bs "XFD1048576") = Ok (16383, 1048575).
Proof. unfold coord_ok. repeat split; try (vm_compute; reflexivity); vm_compute; discriminate. Qed.

(** ** C58 *)
(** The shape of a reference with the letter C after its first digit: a prefix without digits, a
    digit, no C up to the first C, the rest. *)
Definition c_ref (pre : gostr) (dg : Z) (mid rest : gostr) : Prop := pre <> [] /\ Forall (fun x => ~ digit x) pre /\ digit dg /\ ~ In 67 mid.
Lemma index_skip : forall p a b i, Forall (fun c => p c = false) a -> index_from p i (a ++ b) = index_from p (i + zlen a) b.
Proof.
  induction a as [|c a IH]; intros b i F; [cbn [app]; change (zlen (@nil Z)) with 0; rewrite Z.add_0_r; reflexivity|]. inversion F as [|? ? H F2]; subst. cbn [app index_from]. rewrite H, IH, zlen_cons by auto. f_equal. lia.
Qed.
Lemma first_digit : forall r, (exists a dg b, r = a ++ dg :: b /\ Forall (fun x => ~ digit x) a /\ digit dg) \/ Forall (fun x => ~ digit x) r.
Proof.
  induction r as [|c r IH]; [right; constructor|]. destruct (Z.leb_spec 48 c); [destruct (Z.leb_spec c 57)|].
  - left. exists [], c, r. repeat split; auto; unfold digit; lia.
  - destruct IH as [(a & dg & b & -> & F & D)|F]; [left; exists (c :: a), dg, b|right]; [split; [reflexivity|]; split; [|exact D]|]; (constructor; [unfold digit; lia|exact F]).
  - destruct IH as [(a & dg & b & -> & F & D)|F]; [left; exists (c :: a), dg, b|right]; [split; [reflexivity|]; split; [|exact D]|]; (constructor; [unfold digit; lia|exact F]).
Qed.
Lemma first_byte : forall x (b : gostr), (exists m t, b = m ++ x :: t /\ ~ In x m) \/ ~ In x b.
Proof.
  intros x b. induction b as [|c b IH]; [right; intros []|]. destruct (Z.eq_dec c x) as [->|N]; [left; exists [], b; split; [reflexivity|intros []]|].
  destruct IH as [(m & t & -> & H)|H]; [left; exists (c :: m), t; split; [reflexivity|]|right]; intros [E|I]; auto.
Qed.
Lemma index_digit : forall a dg b, Forall (fun x => ~ digit x) a -> digit dg -> index_any digit_set (a ++ dg :: b) = zlen a.
Proof.
  intros a dg b F D. unfold index_any, index_where. rewrite index_skip by (eapply Forall_impl; [|exact F]; intros; apply not_in_digit_set; auto). cbn [index_from]. rewrite (proj2 (in_digit_set dg) D). lia.
Qed.
Lemma index_no_digit : forall a, Forall (fun x => ~ digit x) a -> index_any digit_set a = -1.
Proof. intros a F. apply index_none. eapply Forall_impl; [|exact F]. intros; apply not_in_digit_set; auto. Qed.
Lemma index_C : forall m t, ~ In 67 m -> index_byte 67 (m ++ 67 :: t) = zlen m.
Proof.
  intros m t N. unfold index_byte, index_where. rewrite index_skip; [cbn [index_from]; change (67 =? 67) with true; cbn iota; lia|]. apply Forall_forall. intros x Hx. apply Z.eqb_neq. intros <-. contradiction.
Qed.
Lemma index_no_C : forall m, ~ In 67 m -> index_byte 67 m = -1.
Proof. intros m N. apply index_none. apply Forall_forall. intros x Hx. apply Z.eqb_neq. intros <-. contradiction. Qed.
Lemma ref_c : forall a dg m t, c_ref a dg m t -> ref_to_indexes (a ++ dg :: m ++ 67 :: t) =
  (let r := a ++ dg :: m ++ 67 :: t in let i2 := 1 + zlen m in
   col1 <- substr r (zlen a) i2 ;; row1 <- substr r (i2 + 1) (zlen r) ;; Ok (fst (parse_int 64 col1), s64 (fst (parse_int 64 row1) - 1))).
Proof.
  intros a dg m t (N & F & D & NC). unfold ref_to_indexes. rewrite index_digit by auto.
  assert (1 <= zlen a) by (destruct a as [|x a]; [congruence|rewrite zlen_cons; pose proof (zlen_nonneg _ a); lia]). pose proof (zlen_nonneg _ m). pose proof (zlen_nonneg _ t).
  assert (L : zlen (a ++ dg :: m ++ 67 :: t) = zlen a + (1 + (zlen m + (1 + zlen t)))) by (rewrite zlen_app, zlen_cons, zlen_app, zlen_cons; reflexivity).
  destruct (Z.ltb_spec (zlen (a ++ dg :: m ++ 67 :: t)) 2); [lia|]. destruct (Z.leb_spec (zlen a) 0); [lia|]. rewrite zdrop_app_exact.
  assert (IC : index_byte 67 (dg :: m ++ 67 :: t) = 1 + zlen m) by (change (dg :: m ++ 67 :: t) with ((dg :: m) ++ 67 :: t); rewrite index_C by (intros [E|E]; [unfold digit in D; lia|contradiction]); apply zlen_cons).
  rewrite IC. destruct (Z.eqb_spec (1 + zlen m) (-1)); [lia|]. reflexivity.
Qed.
Theorem C58_panics : forall r, ref_to_indexes r = Panic <-> exists a dg m t, r = a ++ dg :: m ++ 67 :: t /\ c_ref a dg m t /\ 1 + zlen m < zlen a.
Proof.
  intros r. split.
  - intros P. destruct (first_digit r) as [(a & dg & b & -> & F & D)|F].
    + destruct (first_byte 67 b) as [(m & t & -> & NC)|NC].
      * assert (NA : a <> []).
        { intros ->. unfold ref_to_indexes in P. rewrite index_digit in P by auto. change (zlen (@nil Z)) with 0 in P. change (0 <=? 0) with true in P. destruct (_ <? _); discriminate. }
        exists a, dg, m, t. split; [reflexivity|]. split; [split; auto|]. rewrite ref_c in P by (split; auto). cbv zeta in P. unfold substr in P.
        pose proof (zlen_nonneg _ m). pose proof (zlen_nonneg _ t). pose proof (zlen_nonneg _ a).
        assert (L : zlen (a ++ dg :: m ++ 67 :: t) = zlen a + (1 + (zlen m + (1 + zlen t)))) by (rewrite zlen_app, zlen_cons, zlen_app, zlen_cons; reflexivity).
        destruct (Z_lt_dec (1 + zlen m) (zlen a)); [auto|]. exfalso.
        rewrite L in P. replace ((0 <=? zlen a) && (zlen a <=? 1 + zlen m) && (1 + zlen m <=? zlen a + (1 + (zlen m + (1 + zlen t))))) with true in P by lia. cbn [bind] in P.
        replace ((0 <=? 1 + zlen m + 1) && (1 + zlen m + 1 <=? zlen a + (1 + (zlen m + (1 + zlen t)))) && (zlen a + (1 + (zlen m + (1 + zlen t))) <=? zlen a + (1 + (zlen m + (1 + zlen t))))) with true in P; [discriminate|].
        assert (1 <= zlen a) by (destruct a as [|x a]; [congruence|rewrite zlen_cons; pose proof (zlen_nonneg _ a); lia]). lia.
      * exfalso. unfold ref_to_indexes in P. rewrite index_digit in P by auto. destruct (_ <? _); [discriminate|]. destruct (_ <=? _); [discriminate|]. rewrite zdrop_app_exact, index_no_C in P by (intros [E|E]; [unfold digit in D; lia|contradiction]). change (-1 =? -1) with true in P. discriminate.
    + exfalso. unfold ref_to_indexes in P. rewrite index_no_digit in P by auto. change (-1 <=? 0) with true in P. destruct (_ <? _); discriminate.
  - intros (a & dg & m & t & -> & C & L). rewrite ref_c by exact C. cbv zeta. unfold substr. replace ((0 <=? zlen a) && (zlen a <=? 1 + zlen m) && (1 + zlen m <=? zlen (a ++ dg :: m ++ 67 :: t))) with false by lia. reflexivity.
Qed.
(** Otherwise the answer is a pair of numbers. *)
Theorem C58_total : forall r, ref_to_indexes r = Panic \/ exists c k, ref_to_indexes r = Ok (c, k).
Proof.
  intros r. unfold ref_to_indexes. destruct (_ <? _); [right; eauto|]. destruct (_ <=? _); [right; eauto|]. destruct (_ =? _); [right; eauto|]. unfold substr. destruct (_ && _ && _); cbn [bind]; [|auto]. destruct (_ && _ && _); cbn [bind]; [right; eauto|auto].
Qed.
(** References in R1C1 style, such as R3C4, never have a row: the text after the column is taken
    at the wrong place and still contains the letter. *)
Lemma loop_syntax : forall l n maxv, 0 <= n -> (n + 1) * 10 ^ zlen l <= maxv + 1 -> Exists (fun c => ~ digit c) l -> parse_uint_loop maxv n l = (0, PSyntax).
Proof.
  induction l as [|c l IH]; intros n maxv Hn B X; [inversion X|]. cbn [parse_uint_loop]. rewrite zlen_cons in B. pose proof (zlen_nonneg _ l).
  rewrite Z.add_comm, Z.pow_add_r, Z.pow_1_r in B by lia. assert (0 < 10 ^ zlen l) by (apply Z.pow_pos_nonneg; lia).
  destruct ((48 <=? c) && (c <=? 57)) eqn:E; [|reflexivity]. destruct (Z.ltb_spec maxv (n * 10 + (c - 48))); [exfalso; nia|]. apply IH; [lia|nia|]. inversion X; subst; [unfold digit in *; lia|auto].
Qed.
Lemma int_syntax : forall l, Exists (fun c => ~ digit c /\ c <> 43 /\ c <> 45) l -> zlen l <= 19 -> fst (parse_int 64 l) = 0.
Proof.
  intros l X L. unfold parse_int. destruct l as [|c l]; [reflexivity|]. set (body := if (c =? 43) || (c =? 45) then l else c :: l).
  assert (XB : Exists (fun c => ~ digit c) body).
  { unfold body. inversion X as [? ? (A & B & C)|? ? X2]; subst.
    - replace ((c =? 43) || (c =? 45)) with false by lia. constructor. exact A.
    - assert (Exists (fun c => ~ digit c) l) by (eapply Exists_impl; [|exact X2]; intros x (A & _); exact A). destruct (_ || _); [auto|apply Exists_cons_tl; auto]. }
  assert (LB : zlen body <= 19) by (unfold body; rewrite zlen_cons in L; destruct (_ || _); [lia|rewrite zlen_cons; lia]).
  assert (P : parse_uint 64 body = (0, PSyntax)).
  { unfold parse_uint. destruct body as [|b body']; [reflexivity|]. apply loop_syntax; auto; [lia|]. assert (10 ^ zlen (b :: body') <= 10 ^ 19) by (apply Z.pow_le_mono_r; lia). change (10 ^ 19) with 10000000000000000000 in *. change (2 ^ 64 - 1 + 1) with 18446744073709551616. lia. }
  rewrite P. reflexivity.
Qed.
Theorem C58_R1C1_refuted : forall a dg m t, c_ref a dg m t -> zlen a <= 1 + zlen m -> zlen (a ++ dg :: m ++ 67 :: t) <= 19 -> exists c, ref_to_indexes (a ++ dg :: m ++ 67 :: t) = Ok (c, -1).
Proof.
  intros a dg m t C LA LL. pose proof C as (NA & _). rewrite ref_c by exact C. cbv zeta. pose proof (zlen_nonneg _ m). pose proof (zlen_nonneg _ t).
  assert (1 <= zlen a) by (destruct a as [|x a]; [congruence|rewrite zlen_cons; pose proof (zlen_nonneg _ a); lia]).
  set (r := a ++ dg :: m ++ 67 :: t) in *. assert (L : zlen r = zlen a + (1 + (zlen m + (1 + zlen t)))) by (unfold r; rewrite zlen_app, zlen_cons, zlen_app, zlen_cons; reflexivity).
  unfold substr. replace ((0 <=? zlen a) && (zlen a <=? 1 + zlen m) && (1 + zlen m <=? zlen r)) with true by lia. replace ((0 <=? 1 + zlen m + 1) && (1 + zlen m + 1 <=? zlen r) && (zlen r <=? zlen r)) with true by lia. cbn [bind].
  rewrite (int_syntax (ztake (zlen r - (1 + zlen m + 1)) (zdrop (1 + zlen m + 1) r))); [eexists; reflexivity| |].
  - apply Exists_exists. exists 67. split; [|unfold digit; lia]. rewrite (ztake_all _ (zdrop (1 + zlen m + 1) r)) by (rewrite zlen_zdrop by lia; lia).
    assert (E : r = (a ++ dg :: m) ++ 67 :: t) by (unfold r; rewrite <- app_assoc; reflexivity). rewrite E, zdrop_app_le by (rewrite zlen_app, zlen_cons; lia). apply in_or_app. right. left. reflexivity.
  - unfold ztake, zdrop, zlen in *. rewrite firstn_length, skipn_length. lia.
Qed.
Example ex_C58 : c_ref (bs "AB") 49 [] [] /\ ref_to_indexes (bs "AB1C") = Panic /\ c_ref (bs "R") 51 [] (bs "4") /\ ref_to_indexes (bs "R3C4") = Ok (0, -1).
Proof.
  repeat split; try discriminate; try (vm_compute; reflexivity); try (vm_compute; intuition discriminate);
  repeat constructor; unfold digit; vm_compute; intuition discriminate.
Qed.

(** ** C59 *)
Theorem C59_shared_strings : forall d pre items, between pre -> Forall (fun i => plain_item (fst i) /\ between (snd i)) items ->
  exists d', parse_shared (mkXml (sst_toks pre items) EEOF) d = Ok d' /\ xd_strings d' = xd_strings d ++ map (fun i => item_text (fst i)) items.
Proof.
  intros d pre items B F. unfold parse_shared. cbn [xm_toks xm_end end_err]. rewrite sst_table; auto; [|eapply Forall_impl; [|exact F]; intros i [Q1 Q2]; split; [apply plain_all; exact Q1|exact Q2]].
  eexists. split; [reflexivity|]. cbn [xd_strings]. f_equal. apply map_ext_in. intros i Hi. rewrite Forall_forall in F. apply plain_all, (F i Hi).
Qed.
(** With phonetic hints or white space in an item, these become part of the string. *)
Theorem C59_phonetic_refuted : forall d pre post a t b a' t', between pre -> between post -> concat t' <> [] ->
  let item := [SpText a t; SpPhonetic b a' t'] in
  exists d', parse_shared (mkXml (sst_toks pre [(item, post)]) EEOF) d = Ok d' /\ xd_strings d' = xd_strings d ++ [concat t ++ concat t'] /\ concat t ++ concat t' <> item_text item.
Proof.
  intros d pre post a t b a' t' B1 B2 N item. unfold parse_shared. cbn [xm_toks xm_end end_err]. rewrite sst_table; auto; [|constructor; [split; [repeat constructor|exact B2]|constructor]].
  eexists. split; [reflexivity|]. cbn [xd_strings map fst]. unfold item, item_all, item_text. cbn [map concat spart_all spart_text]. rewrite !app_nil_r. split; [reflexivity|]. intros E. rewrite <- (app_nil_r (concat t)) in E at 2. apply app_inv_head in E. contradiction.
Qed.
Theorem C59_space_refuted : forall d pre post a t w, between pre -> between post -> w <> [] ->
  let item := [SpSpace w; SpText a t] in
  exists d', parse_shared (mkXml (sst_toks pre [(item, post)]) EEOF) d = Ok d' /\ xd_strings d' = xd_strings d ++ [w ++ concat t] /\ w ++ concat t <> item_text item.
Proof.
  intros d pre post a t w B1 B2 N item. unfold parse_shared. cbn [xm_toks xm_end end_err]. rewrite sst_table; auto; [|constructor; [split; [repeat constructor|exact B2]|constructor]].
  eexists. split; [reflexivity|]. cbn [xd_strings map fst]. unfold item, item_all, item_text. cbn [map concat spart_all spart_text]. rewrite !app_nil_r. split; [reflexivity|]. intros E. apply (f_equal (@zlen Z)) in E. rewrite zlen_app in E. change (concat (map spart_text [SpSpace w; SpText a t])) with ([] ++ concat t ++ []) in E. cbn [app] in E. rewrite ?app_nil_r in E. destruct w; [congruence|]. rewrite zlen_cons in E. pose proof (zlen_nonneg _ w). lia.
Qed.
(** a rich text item *)
Example ex_C59 : between [XStart (bs "sst") []; XChars [10]] /\
  plain_item [SpText [] [bs "a"; bs "b"]; SpRun [XStart (bs "rPr") []; XStart (bs "b") []; XEnd (bs "b"); XEnd (bs "rPr")] [] [bs "c"]] /\
  match parse_shared (mkXml (sst_toks [XStart (bs "sst") []; XChars [10]] [([SpText [] [bs "a"; bs "b"]; SpRun [XStart (bs "rPr") []; XEnd (bs "rPr")] [] [bs "c"]], [XChars [32]]); ([SpText [] [bs "z"]], [])]) EEOF) (new_xdoc []) with
  | Ok d => xd_strings d = [bs "abc"; bs "z"]
  | _ => False
  end.
Proof. split; [repeat constructor; discriminate|]. split; [repeat constructor; discriminate|]. vm_compute. reflexivity. Qed.

(** ** C60 *)
Theorem C60_styles : forall d l, Forall spiece_ok l ->
  exists d', parse_styles (mkXml (style_toks l) EEOF) d = Ok d' /\ xd_xfs d' = style_xfs l [] /\
    xd_fmt d' = fold_left (fun x f => fst (fx_add x (fst f) (snd f))) (style_formats l) (xd_fmt d).
Proof.
  intros d l F. unfold parse_styles. cbn [xm_toks xm_end end_err]. destruct (style_pieces l (mkSty [] 0 [] (xd_fmt d)) F eq_refl) as (b & E). rewrite E. cbn [bind sy_xfs sy_fmt]. eexists. split; [reflexivity|]. split; reflexivity.
Qed.
(** style number k of the only cellXfs table *)
Theorem C60_style_number : forall a b attrs n pre xl k x, (forall p, In p (a ++ b) -> match p with PcCells _ _ _ _ => False | _ => True end) -> nth_error xl k = Some x ->
  nth_error (style_xfs (a ++ PcCells attrs n pre xl :: b) []) k = Some (xfe_format x).
Proof.
  intros a b attrs n pre xl k x H N. assert (G : forall l xfs, (forall p, In p l -> match p with PcCells _ _ _ _ => False | _ => True end) -> forall m, style_xfs (l ++ m) xfs = style_xfs m xfs).
  { induction l as [|p l IH]; intros xfs Hl m; [reflexivity|]. pose proof (Hl p (or_introl eq_refl)). destruct p; try contradiction; cbn [app style_xfs]; apply IH; intros; apply Hl; right; auto. }
  rewrite G by (intros; apply H; apply in_or_app; auto). cbn [style_xfs]. rewrite <- (app_nil_r b). rewrite G by (intros; apply H; apply in_or_app; auto). cbn [style_xfs]. apply map_nth_error. exact N.
Qed.
(** ids that do not fit 15 bits all become 32767 *)
Lemma saturate16 : forall l, Forall digit l -> l <> [] -> fold_left (fun a c => a * 10 + (c - 48)) l 0 >= 32768 -> fst (parse_int 16 l) = 32767.
Proof.
  assert (G : forall l n, 0 <= n <= 65535 -> Forall digit l -> fold_left (fun a c => a * 10 + (c - 48)) l n >= 32768 -> exists v e, parse_uint_loop 65535 n l = (v, e) /\ 32768 <= v /\ e <> PSyntax).
  { induction l as [|c l IH]; intros n Hn F H; cbn [fold_left parse_uint_loop] in *; [exists n, PNone; repeat split; [lia|discriminate]|]. inversion F as [|? ? D F2]; subst. unfold digit in D. replace ((48 <=? c) && (c <=? 57)) with true by lia.
    destruct (Z.ltb_spec 65535 (n * 10 + (c - 48))); [exists 65535, PRange; repeat split; [lia|discriminate]|]. apply IH; auto. lia. }
  intros l F N H. destruct (G l 0 ltac:(lia) F H) as (v & e & E & V & NE). unfold parse_int. destruct l as [|c l]; [congruence|]. inversion F as [|? ? D F2]; subst. unfold digit in D. replace ((c =? 43) || (c =? 45)) with false by lia. replace (c =? 45) with false by lia.
  unfold parse_uint. change (2 ^ 16 - 1) with 65535. rewrite E. change (2 ^ (16 - 1)) with 32768. destruct e; try congruence; (replace (negb false && (32768 <=? v)) with true by lia; reflexivity).
Qed.
Theorem C60_large_refuted : forall n st attrs, 32768 <= n -> has_attr attrs "numFmtId" (utoa n) -> no_attr attrs "applyNumberFormat" -> no_attr attrs "xfId" -> sy_section st = 2 ->
  exists st', styles_loop [XStart (bs "xf") attrs; XEnd (bs "xf")] st = Ok st' /\ sy_xfs st' = sy_xfs st ++ [32767].
Proof.
  intros n st attrs Hn H1 H2 H3 S. cbn [styles_loop]. unfold style_start. change (str_eqb (bs "xf") (bs "numFmt")) with false. change (str_eqb (bs "xf") (bs "cellStyleXfs")) with false. change (str_eqb (bs "xf") (bs "cellXfs")) with false. change (str_eqb (bs "xf") (bs "xf")) with true. cbn iota.
  unfold style_xf. rewrite S. change (2 =? 1) with false. change (2 =? 2) with true. cbn iota. rewrite (get_has _ _ _ H1), (get_no _ _ H2), (get_no _ _ H3). change (int_attr 64 []) with 0. change (str_eqb [] (bs "0")) with false. cbn iota.
  assert (B : exists y, (if 0 <? zlen (sy_base st) then idx (sy_base st) 0 else Ok []) = Ok y) by (destruct (sy_base st); [exists []; reflexivity|]; rewrite zlen_cons; destruct (_ <? _); [rewrite idx_0|]; eexists; reflexivity).
  destruct B as (y & ->). cbn [bind]. destruct (utoa_spec n) as (D & V & N); [lia|]. unfold int_attr. unfold dec_val in V; rewrite saturate16 by (auto; lia). eexists. split; [reflexivity|]. reflexivity.
Qed.
Definition ex_styles : list spiece :=
  [ PcOther (XStart (bs "styleSheet") []); PcOther (XChars [10]); PcNumFmt [(bs "numFmtId", bs "164"); (bs "formatCode", bs "0.000")] 164 (bs "0.000");
    PcBase [] [([(bs "numFmtId", bs "0")], [])];
    PcCells [(bs "count", bs "3")] (Some 3) [XChars [32]]
      [ mkXfe [(bs "numFmtId", bs "14"); (bs "xfId", bs "0"); (bs "applyNumberFormat", bs "1")] 14 (Some (bs "1")) (Some 0) [XStart (bs "alignment") []; XEnd (bs "alignment")];
        mkXfe [(bs "numFmtId", bs "164")] 164 None None []; mkXfe [(bs "numFmtId", bs "9"); (bs "applyNumberFormat", bs "0")] 9 (Some (bs "0")) None [] ];
    PcOther (XEnd (bs "styleSheet")) ].
Ltac attr := match goal with
  | |- has_attr ?a ?k ?v => (exists [], (tl a) + exists (firstn 1 a), (skipn 2 a) + exists (firstn 2 a), (skipn 3 a) + exists (firstn 3 a), (skipn 4 a)); (split; [reflexivity|split; intros A; vm_compute in A; intuition discriminate])
  | |- no_attr ?a ?k => intros A; vm_compute in A; intuition discriminate
  end.
Ltac oth := cbn [other]; try exact I; intros A; vm_compute in A; intuition discriminate.
Example ex_styles_ok : Forall spiece_ok ex_styles.
Proof.
  unfold ex_styles. apply Forall_cons; [oth|]. apply Forall_cons; [oth|]. apply Forall_cons; [|apply Forall_cons; [|apply Forall_cons; [|apply Forall_cons; [oth|apply Forall_nil]]]]; cbn [spiece_ok].
  - split; [attr|]. split; [attr|lia].
  - repeat constructor.
  - split; [cbn [opt_attr option_map]; attr|]. split; [intros k E; injection E as <-; vm_compute; split; discriminate|]. split; [repeat constructor|].
    repeat (constructor; [unfold xfe_ok; cbn [xf_attrs xf_id xf_apply xf_base xf_rest opt_attr option_map];
      split; [attr|]; split; [lia|]; split; [attr|]; split; [attr|]; split; [intros b E; first [discriminate|injection E as <-; vm_compute; split; [discriminate|reflexivity]]|repeat (constructor; [oth|]); constructor]|]). constructor.
Qed.
Example ex_C60 : style_xfs ex_styles [] = [14; 164; 0] /\ style_formats ex_styles = [(164, bs "0.000")].
Proof. split; reflexivity. Qed.

(** ** C61 *)
(** One sheet of an open document. *)
Theorem C61_sheet : forall d docname w e, reach_fx (xd_fmt d) -> Forall w16 (xd_xfs d) -> open_xml (xd_zip d) docname = inl (mkXml (xw_toks w) e) -> xw_ok (zlen (xd_strings d)) w ->
  exists s, parse_xsheet d docname = Ok (s, end_err e) /\
    displays (xd_fmt d) (xw_writes (xd_strings d) (xd_xfs d) (fun k => sfind k (sheet_links (xd_zip d) docname)) w) (snd (xw_size w)) (fst (xw_size w)) s.
Proof. exact xsheet_ok. Qed.
(** targets of hyperlinks *)
Lemma link_elements : forall l m, link_loop l m = fold_left (fun m a => if str_eqb (get_attr a (bs "TargetMode")) (bs "External") && str_eqb (get_attr a (bs "Type")) rel_link then sput (get_attr a (bs "Id")) (get_attr a (bs "Target")) m else m) (elements "Relationship" l) m.
Proof.
  induction l as [|t l IH]; intros m; [reflexivity|]. destruct t as [n a|n|c|]; cbn [link_loop elements flat_map app]; fold (elements "Relationship" l); [|apply IH..].
  destruct (str_eqb n (bs "Relationship")); cbn [andb app fold_left]; apply IH.
Qed.
Lemma link_yes : forall a id t, link_rel a id t -> str_eqb (get_attr a (bs "TargetMode")) (bs "External") && str_eqb (get_attr a (bs "Type")) rel_link = true /\ get_attr a (bs "Id") = id /\ get_attr a (bs "Target") = t.
Proof. intros a id t (H1 & H2 & H3 & H4). rewrite (get_has _ _ _ H1), (get_has _ _ _ H2), (get_has _ _ _ H3), (get_has _ _ _ H4). repeat split. Qed.
Lemma link_no : forall a m ty, opt_attr a "TargetMode" m -> opt_attr a "Type" ty -> m <> Some (bs "External") \/ ty <> Some (rel_uri "hyperlink") -> str_eqb (get_attr a (bs "TargetMode")) (bs "External") && str_eqb (get_attr a (bs "Type")) rel_link = false.
Proof.
  intros a m ty H1 H2 N. rewrite (get_opt _ _ _ H1), (get_opt _ _ _ H2). apply andb_false_iff. destruct N as [N|N]; [left|right]; apply str_eqb_neq.
  - destruct m as [m|]; [congruence|discriminate].
  - destruct ty as [ty|]; [intros E; apply N; rewrite E; reflexivity|discriminate].
Qed.
Lemma links_found : forall z dir base target, Forall seg_ok dir -> seg_ok base -> sheet_targets z dir base target -> forall k, sfind k (sheet_links z (path (dir ++ [base]))) = target k.
Proof.
  intros z dir base target FD OB [T0 T1] k. unfold sheet_links. rewrite base_part, trim_part, rels_join by auto. destruct (open_xml z (rels_part dir base)) as [x|e]; [|rewrite (T0 e eq_refl); reflexivity].
  destruct (T1 x eq_refl) as [H1 H2]. clear T0 T1. rewrite link_elements.
  assert (G : forall l m, (forall a, In a l -> (exists id t, link_rel a id t) \/ exists m ty, opt_attr a "TargetMode" m /\ opt_attr a "Type" ty /\ (m <> Some (bs "External") \/ ty <> Some (rel_uri "hyperlink"))) ->
     (forall a id t, In a l -> link_rel a id t -> target id = Some t) -> (forall id t, sfind id m = Some t -> target id = Some t) ->
     let m' := fold_left (fun m a => if str_eqb (get_attr a (bs "TargetMode")) (bs "External") && str_eqb (get_attr a (bs "Type")) rel_link then sput (get_attr a (bs "Id")) (get_attr a (bs "Target")) m else m) l m in
     (forall id t, sfind id m' = Some t -> target id = Some t) /\ (forall a id t, In a l -> link_rel a id t -> sfind id m' <> None) /\ (forall id, sfind id m <> None -> sfind id m' <> None)).
  { induction l as [|a l IH]; intros m HA HL HM; cbv zeta; cbn [fold_left]; [repeat split; auto; intros a id t []|].
    assert (HA' : forall a0, In a0 l -> (exists id t, link_rel a0 id t) \/ exists m ty, opt_attr a0 "TargetMode" m /\ opt_attr a0 "Type" ty /\ (m <> Some (bs "External") \/ ty <> Some (rel_uri "hyperlink"))) by (intros; apply HA; right; auto).
    assert (HL' : forall a0 id t, In a0 l -> link_rel a0 id t -> target id = Some t) by (intros a0 id t I; apply HL; right; auto).
    destruct (HA a (or_introl eq_refl)) as [(id & t & L)|(mo & ty & O1 & O2 & N)].
    - destruct (link_yes a id t L) as (Y & E1 & E2). rewrite Y, E1, E2. destruct (IH (sput id t m) HA' HL') as (G1 & G2 & G3).
      { intros id' t' E. unfold sput in E. cbn [sfind] in E. destruct (str_eqb id' id) eqn:Q; [apply str_eqb_eq in Q; subst; injection E as <-; apply (HL a); auto; left; reflexivity|auto]. }
      split; [exact G1|]. split.
      + intros a0 id' t' [<-|I] L'; [|eapply G2; eauto]. destruct (link_yes a id' t' L') as (_ & E1' & _). assert (id' = id) by congruence. subst id'. apply G3. unfold sput. cbn [sfind]. rewrite ?E1, str_eqb_refl. discriminate.
      + intros id' N. apply G3. unfold sput. cbn [sfind]. destruct (str_eqb id' id); [discriminate|exact N].
    - rewrite (link_no a mo ty O1 O2 N). destruct (IH m HA' HL' HM) as (G1 & G2 & G3). split; [exact G1|]. split; [|exact G3]. intros a0 id' t' [<-|I] L'; [|eapply G2; eauto]. destruct (link_yes a id' t' L') as (Y & _). rewrite (link_no a mo ty O1 O2 N) in Y. discriminate. }
  destruct (G (elements "Relationship" (xm_toks x)) [] H2) as (G1 & G2 & _); [intros a id t I L; apply H1; eauto|discriminate|].
  set (m' := fold_left _ _ _) in *. destruct (sfind k m') as [t|] eqn:E; [symmetry; apply G1; exact E|]. destruct (target k) as [t|] eqn:ET; [|reflexivity]. apply H1 in ET. destruct ET as (a & I & L). elim (G2 a k t I L E).
Qed.
Lemma xw_writes_ext : forall strs xfs f g w, (forall k, f k = g k) -> xw_writes strs xfs f w = xw_writes strs xfs g w.
Proof. intros strs xfs f g w H. unfold xw_writes. apply flat_map_ext. intros i. destruct i; cbn [xitem_writes]; auto. rewrite H. reflexivity. Qed.
Lemma find_first : forall l a s b name i, l = a ++ s :: b -> xh_name s = name -> ~ In name (map xh_name a) -> find_sheet l name i = Some ((i + List.length a)%nat, s).
Proof.
  intros l a s b name i -> N NI. revert i. induction a as [|x a IH]; intros i; cbn [app find_sheet].
  - rewrite N, str_eqb_refl. cbn [List.length]. rewrite Nat.add_0_r. reflexivity.
  - cbn [map In] in NI. rewrite (proj2 (str_eqb_neq (xh_name x) name)) by intuition. rewrite IH by intuition. cbn [List.length]. do 2 f_equal. lia.
Qed.
Lemma find_none : forall l name i, ~ In name (map xh_name l) -> find_sheet l name i = None.
Proof. induction l as [|x l IH]; intros name i N; [reflexivity|]. cbn [map In] in N. cbn [find_sheet]. rewrite (proj2 (str_eqb_neq (xh_name x) name)) by intuition. apply IH. intuition. Qed.
Lemma nth_set_nth : forall A (l : list A) i x, (i < List.length l)%nat -> nth_error (set_nth l i x) i = Some x.
Proof. intros. unfold set_nth. rewrite nth_error_app2; rewrite firstn_length_le by lia; [|lia]. rewrite Nat.sub_diag. reflexivity. Qed.

(** A whole package: Open succeeds for every order in which maps are visited; List gives the
    names of the sheets in order; Get of a name reads the part of the first sheet of that name and
    shows its cells; Get of another name is an error. *)
Theorem C61_workbook : forall order z k, (forall l, Permutation l (order l)) -> package z k ->
  exists d, open_xlsx order (XZip z) = Ok d /\ doc_list (mkXO d false) = map fst (pk_sheets k) /\
    (forall a name id b dir base w target, pk_sheets k = a ++ (name, id) :: b -> ~ In name (map fst a) -> sheet_part k id (path (dir ++ [base])) -> Forall seg_ok dir -> seg_ok base ->
       part_is z (path (dir ++ [base])) (xw_toks w) -> sheet_targets z dir base target -> xw_ok (zlen (pkg_strings k)) w ->
       exists o s, doc_get (mkXO d false) name = Ok (o, (List.length a, None)) /\ coll o (List.length a) = Some s /\
         displays (pkg_formats k) (xw_writes (pkg_strings k) (pkg_xfs k) target w) (snd (xw_size w)) (fst (xw_size w)) s) /\
    (forall name, ~ In name (map fst (pk_sheets k)) -> doc_get (mkXO d false) name = Err ENoSheet).
Proof.
  intros order z k HO P. destruct (open_package order z k HO P) as (d & E & EZ & ES & EX & EF & W & SH). exists d. split; [exact E|].
  assert (NM : map xh_name (xd_sheets d) = map fst (pk_sheets k)) by (clear - SH; induction SH as [|s h l l' (H & _) F IH]; [reflexivity|]; cbn [map]; rewrite H, IH; reflexivity).
  split; [unfold doc_list; cbn [xo_closed xo_doc]; exact NM|]. split.
  - intros a name id b dir base w target EQ NI SP FD OB PI TG OK. unfold part_is in PI.
    rewrite EQ in SH. apply Forall2_app_inv_l in SH. destruct SH as (ha & hb & FA & FB & EH). inversion FB as [|? h ? hb' (H1 & H2 & H3 & H4 & _) FB']; subst hb. cbn [fst snd] in *.
    assert (LA : List.length ha = List.length a) by (clear - FA; induction FA; cbn; auto).
    assert (NA : map xh_name ha = map fst a) by (clear - FA; induction FA as [|s x l l' (H & _) F IH]; [reflexivity|]; cbn [map]; rewrite H, IH; reflexivity).
    unfold doc_get. cbn [xo_closed xo_doc]. rewrite (find_first _ ha h hb' name 0%nat EH H1) by (rewrite NA; exact NI). cbn [Nat.add]. rewrite LA, H2, (H4 _ SP).
    destruct (xsheet_ok d (path (dir ++ [base])) w EEOF) as (s & PS & D).
    + rewrite EF. apply reach_formats. constructor.
    + rewrite EX. exact W.
    + rewrite EZ. exact PI.
    + rewrite ES. exact OK.
    + rewrite PS. cbn [bind end_err]. eexists. exists s. split; [reflexivity|]. split.
      * unfold coll. cbn [xo_doc with_sheets xd_sheets]. rewrite nth_set_nth; [reflexivity|]. rewrite EH, app_length, LA. cbn [List.length]. lia.
      * rewrite EF, ES, EX, EZ in D. rewrite (xw_writes_ext _ _ _ target) in D; [exact D|]. apply links_found; auto.
  - intros name NI. unfold doc_get. cbn [xo_closed xo_doc]. rewrite find_none by (rewrite NM; exact NI). reflexivity.
Qed.

(** ** C62 *)
(** The texts inside one cell element: every text is stored, so that the last one is what the
    cell shows, wherever in the element it stands. *)
Definition texts (l : list xtok) : list bytes := flat_map (fun t => match t with XChars c => [c] | _ => [] end) l.
Definition inside (t : xtok) : Prop := match t with XChars _ => True | _ => silent t end.
Definition cell_type (a : list xattr) : gostr := match get_attr a (bs "t") with [] => bs "n" | t => t end.
(** the value of a text in a cell of a type *)
Definition typed_value (strs : list gostr) (ty t : gostr) (v : goval) : Prop :=
  ty = bs "n" /\ v = number_value t \/
  ty = bs "b" /\ (exists c u, t = c :: u /\ v = GBool (c =? 49)) \/
  ty = bs "s" /\ (exists i x, fst (parse_int 64 t) = i /\ 0 <= i /\ nth_error strs (Z.to_nat i) = Some x /\ v = GStr x) \/
  In ty text_types /\ v = GStr t.
Lemma typed_text : forall strs ty t v, typed_value strs ty t v -> cell_text_value strs ty t = Ok (Some v).
Proof.
  intros strs ty t v [[-> ->]|[[-> (c & u & -> & ->)]|[[-> (i & x & <- & I & N & ->)]|[I ->]]]].
  - apply number_text.
  - unfold cell_text_value. change (str_eqb (bs "b") (bs "b")) with true. cbn iota. rewrite idx_0. reflexivity.
  - unfold cell_text_value. change (str_eqb (bs "s") (bs "b")) with false. change (str_eqb (bs "s") (bs "n")) with false. change (str_eqb (bs "s") (bs "s")) with true. cbn iota. rewrite (idx_ok _ strs _ x) by auto. reflexivity.
  - apply text_type_value. exact I.
Qed.
Lemma typed_good : forall strs ty t v, typed_value strs ty t v -> good_value v.
Proof. intros strs ty t v [[_ ->]|[[_ (c & u & _ & ->)]|[[_ (i & x & _ & _ & _ & ->)]|[_ ->]]]]; [apply good_number|apply good_bool|apply good_str|apply good_str]. Qed.
Lemma inside_toks : forall d links l ts vs c r ty f mc mr s, Forall inside l -> texts l = ts -> coord_ok c -> coord_ok r -> Forall2 (typed_value (xd_strings d) ty) ts vs ->
  sheet_toks d links l (mkXps ty (a1 c r) f mc mr s) = (s' <- run_writes s (map (fun v => (r, c, WPut v f)) vs) ;; Ok (mkXps ty (a1 c r) f mc mr s')).
Proof.
  induction l as [|t l IH]; intros ts vs c r ty f mc mr s F T Hc Hr FV; [cbn in T; subst ts; inversion FV; subst; reflexivity|]. inversion F as [|? ? H F2]; subst. unfold texts in FV. cbn [flat_map] in FV. fold (texts l) in FV. cbn [sheet_toks].
  assert (SIL : silent t -> match t with XChars c => [c] | _ => [] end = [] -> sheet_tok d links (mkXps ty (a1 c r) f mc mr s) t = Ok (mkXps ty (a1 c r) f mc mr s)) by (intros; apply silent_tok; auto).
  destruct t as [n a|n|t|]; cbn [inside] in H; try (rewrite (SIL H eq_refl); cbn [bind app] in *; apply IH with (ts := texts l); auto; fail).
  - cbn [app] in FV. inversion FV as [|? v ? vs' V FV']; subst. cbn [sheet_tok]. rewrite (chars_put d _ t c r v) by (auto; apply typed_text; exact V). cbn [xp_sheet xp_fno map run_writes run_write].
    destruct (put s r c v f) as [s1|e| |]; cbn [bind]; auto. unfold with_sheet. cbn [xp_type xp_cell xp_fno xp_maxcol xp_maxrow]. apply IH with (ts := texts l); auto.
Qed.
Lemma last_same : forall (r c : Z) f vs v, same_writes (map (fun v => (r, c, WPut v f)) (vs ++ [v])) [(r, c, WPut v f)].
Proof.
  intros r c f vs v. induction vs as [|x vs (L & R & C & N)]; [apply same_refl|]. cbn [app map]. split; [|split; [|split]].
  - intros r' c'. cbn [last_write]. rewrite L. cbn [last_write]. destruct ((r =? r') && (c =? c')); reflexivity.
  - intros n. cbn [map extent fold_right]. fold (extent n (map wrow (map (fun v => (r, c, WPut v f)) (vs ++ [v])))). rewrite R. unfold wrow. cbn. lia.
  - intros n. cbn [map extent fold_right]. fold (extent n (map wcol (map (fun v => (r, c, WPut v f)) (vs ++ [v])))). rewrite C. unfold wcol. cbn. lia.
  - split; discriminate.
Qed.
Lemma style_get : forall d a s, opt_attr a "s" (option_map utoa s) -> (forall k, s = Some k -> 0 <= k < 2 ^ 63) ->
  (if int_attr 64 (get_attr a (bs "s")) <? zlen (xd_xfs d) then idx (xd_xfs d) (int_attr 64 (get_attr a (bs "s"))) else Ok 0) = Ok (style_format (xd_xfs d) s).
Proof.
  intros d a s H B. rewrite (int_attr_opt _ _ _ H B). set (k := match s with Some s => s | None => 0 end). assert (0 <= k) by (unfold k; destruct s; [apply B; reflexivity|lia]).
  assert (E : style_format (xd_xfs d) s = nth (Z.to_nat k) (xd_xfs d) 0) by (unfold k; destruct s; reflexivity). rewrite E.
  destruct (Z.ltb_spec k (zlen (xd_xfs d))); [apply idx_ok; [auto|]; apply nth_error_nth'; unfold zlen in *; lia|]. rewrite nth_overflow; [reflexivity|]. unfold zlen in *. lia.
Qed.
Theorem C62_last_text : forall d docname w e a c r s l ts vs t v, reach_fx (xd_fmt d) -> Forall w16 (xd_xfs d) -> xw_ok (zlen (xd_strings d)) w ->
  open_xml (xd_zip d) docname = inl (mkXml (xw_toks w ++ XStart (bs "c") a :: l ++ [XEnd (bs "c")]) e) ->
  has_attr a "r" (a1 c r) -> coord_ok c -> coord_ok r -> opt_attr a "s" (option_map utoa s) -> (forall k, s = Some k -> 0 <= k < 2 ^ 63) ->
  Forall inside l -> texts l = ts ++ [t] -> Forall2 (typed_value (xd_strings d) (cell_type a)) ts vs -> typed_value (xd_strings d) (cell_type a) t v ->
  exists sh, parse_xsheet d docname = Ok (sh, end_err e) /\
    displays (xd_fmt d) (xw_writes (xd_strings d) (xd_xfs d) (fun k => sfind k (sheet_links (xd_zip d) docname)) w ++ [(r, c, WPut v (style_format (xd_xfs d) s))]) (snd (xw_size w)) (fst (xw_size w)) sh.
Proof.
  intros d docname w e a c r s l ts vs t v HX HF OK E HR Hc Hr HS HB FI TX FV TV.
  pose proof (good_style (xd_xfs d) s HF) as GS. assert (F2 : Forall2 (typed_value (xd_strings d) (cell_type a)) (ts ++ [t]) (vs ++ [v])) by (apply Forall2_app; auto).
  destruct (xsheet_more d docname w _ e (map (fun v => (r, c, WPut v (style_format (xd_xfs d) s))) (vs ++ [v])) HX HF E OK) as (sh & P & D).
  - apply Forall_forall. intros o Ho. apply in_map_iff in Ho. destruct Ho as (x & <- & Hx). unfold coord_ok in *. apply good1; try lia. clear - F2 Hx. induction F2 as [|t1 v1 tl vl H F IH]; [destruct Hx|]. destruct Hx as [<-|Hx]; [eapply typed_good; exact H|auto].
  - intros t0 f0 s0. exists (cell_type a), (style_format (xd_xfs d) s). cbn [sheet_toks sheet_tok]. change (str_eqb (bs "c") (bs "dimension")) with false. change (str_eqb (bs "c") (bs "c")) with true. cbn iota. unfold sheet_c. rewrite (style_get d a s HS HB). cbn [bind]. rewrite (get_has _ _ _ HR). cbn [xp_maxcol xp_maxrow xp_sheet].
    assert (CT : (if str_eqb (get_attr a (bs "t")) [] then bs "n" else get_attr a (bs "t")) = cell_type a) by (unfold cell_type; destruct (get_attr a (bs "t")); reflexivity). rewrite CT.
    rewrite sheet_toks_app, (inside_toks d _ l (ts ++ [t]) (vs ++ [v])) by auto. destruct (run_writes s0 _) as [s1|er| |]; cbn [bind]; auto.
  - exists sh. split; [exact P|]. eapply displays_same; [|exact D]. apply same_app; [apply same_refl|apply last_same].
Qed.
(** White space before the value changes nothing; white space after it replaces a text by the
    white space, ... *)
Theorem C62_trailing_refuted : forall d docname w e a c r ty t ws, reach_fx (xd_fmt d) -> Forall w16 (xd_xfs d) -> xw_ok (zlen (xd_strings d)) w ->
  has_attr a "r" (a1 c r) -> coord_ok c -> coord_ok r -> no_attr a "s" -> has_attr a "t" ty -> In ty text_types ->
  open_xml (xd_zip d) docname = inl (mkXml (xw_toks w ++ XStart (bs "c") a :: [XStart (bs "v") []; XChars t; XEnd (bs "v"); XChars ws] ++ [XEnd (bs "c")]) e) ->
  exists sh, parse_xsheet d docname = Ok (sh, end_err e) /\
    displays (xd_fmt d) (xw_writes (xd_strings d) (xd_xfs d) (fun k => sfind k (sheet_links (xd_zip d) docname)) w ++ [(r, c, WPut (GStr ws) (style_format (xd_xfs d) None))]) (snd (xw_size w)) (fst (xw_size w)) sh.
Proof.
  intros d docname w e a c r ty t ws HX HF OK HR Hc Hr HS HT IT E. assert (CT : cell_type a = ty) by (unfold cell_type; rewrite (get_has _ _ _ HT); destruct ty; [vm_compute in IT; intuition discriminate|reflexivity]).
  apply (C62_last_text d docname w e a c r None _ [t] [GStr t] ws (GStr ws) HX HF OK E HR Hc Hr HS); rewrite ?CT; [discriminate| |reflexivity|constructor; [right; right; right; auto|constructor]|right; right; right; auto].
  repeat (constructor; [cbn [inside silent other]; try exact I; intros A; vm_compute in A; intuition discriminate|]). constructor.
Qed.
(** ... and a shared string by string number 0. *)
Theorem C62_shared_refuted : forall d docname w e a c r i ws s0 rest, reach_fx (xd_fmt d) -> Forall w16 (xd_xfs d) -> xw_ok (zlen (xd_strings d)) w ->
  has_attr a "r" (a1 c r) -> coord_ok c -> coord_ok r -> no_attr a "s" -> has_attr a "t" (bs "s") -> xd_strings d = s0 :: rest -> 0 <= i < zlen (xd_strings d) -> i < 2 ^ 63 -> Forall (fun b => In b [32; 9; 10; 13]) ws ->
  open_xml (xd_zip d) docname = inl (mkXml (xw_toks w ++ XStart (bs "c") a :: [XStart (bs "v") []; XChars (utoa i); XEnd (bs "v"); XChars ws] ++ [XEnd (bs "c")]) e) ->
  exists sh, parse_xsheet d docname = Ok (sh, end_err e) /\
    displays (xd_fmt d) (xw_writes (xd_strings d) (xd_xfs d) (fun k => sfind k (sheet_links (xd_zip d) docname)) w ++ [(r, c, WPut (GStr s0) (style_format (xd_xfs d) None))]) (snd (xw_size w)) (fst (xw_size w)) sh.
Proof.
  intros d docname w e a c r i ws s0 rest HX HF OK HR Hc Hr HS HT ES HI HI2 FW E. assert (CT : cell_type a = bs "s") by (unfold cell_type; rewrite (get_has _ _ _ HT); reflexivity).
  assert (PW : fst (parse_int 64 ws) = 0).
  { destruct FW as [|b ws IB FW]; [reflexivity|]. cbn [In] in IB. unfold parse_int. replace ((b =? 43) || (b =? 45)) with false by lia. unfold parse_uint. cbn [parse_uint_loop]. replace ((48 <=? b) && (b <=? 57)) with false by lia. reflexivity. }
  apply (C62_last_text d docname w e a c r None _ [utoa i] [GStr (nth (Z.to_nat i) (xd_strings d) [])] ws (GStr s0) HX HF OK E HR Hc Hr HS); rewrite ?CT; [discriminate| |reflexivity| |].
  - repeat (constructor; [cbn [inside silent other]; try exact I; intros A; vm_compute in A; intuition discriminate|]). constructor.
  - constructor; [|constructor]. right. right. left. split; [reflexivity|]. exists i, (nth (Z.to_nat i) (xd_strings d) []). rewrite parse_utoa by lia. split; [reflexivity|]. split; [lia|]. split; [|reflexivity]. apply nth_error_nth'. unfold zlen in *. lia.
  - right. right. left. split; [reflexivity|]. exists 0, s0. rewrite PW, ES. repeat split. lia.
Qed.

(** ** C51 *)
(** every merged region leaves the marks of its part inside the declared dimension, ... *)
Theorem C51_xlsx : forall strs xfs target w pre a c0 r0 c1 r1 post, xw_items w = pre ++ XiMerge a c0 r0 c1 r1 :: post ->
  let W := flat_map (xitem_writes strs xfs target (xdim_last (xw_dim w))) in
  let '(lc, lr) := xdim_last (xw_dim w) in
  xw_writes strs xfs target w = W pre ++ region_cells (r0, Z.min r1 lr, c0, Z.min c1 lc) [] ++ W post.
Proof. intros strs xfs target w pre a c0 r0 c1 r1 post E W. unfold xw_writes. destruct (xdim_last (xw_dim w)) as [lc lr] eqn:D. rewrite E, flat_map_app. reflexivity. Qed.
(** ... which is the whole region if it is inside. *)
Theorem C51_xlsx_inside : forall strs xfs target w pre a c0 r0 c1 r1 post, xw_items w = pre ++ XiMerge a c0 r0 c1 r1 :: post -> c1 <= fst (xdim_last (xw_dim w)) -> r1 <= snd (xdim_last (xw_dim w)) ->
  let W := flat_map (xitem_writes strs xfs target (xdim_last (xw_dim w))) in
  xw_writes strs xfs target w = W pre ++ region_cells (r0, r1, c0, c1) [] ++ W post.
Proof. intros strs xfs target w pre a c0 r0 c1 r1 post E H1 H2 W. unfold xw_writes. rewrite E, flat_map_app. cbn [flat_map xitem_writes]. rewrite !Z.min_l by auto. reflexivity. Qed.

(** ** C71 *)
Lemma region_empty : forall r0 r1 c0 c1, r1 < r0 \/ c1 < c0 \/ r0 = r1 /\ c0 = c1 -> region_cells (r0, r1, c0, c1) [] = [].
Proof.
  intros r0 r1 c0 c1 H. destruct (region_cells (r0, r1, c0, c1) []) as [|[[r c] w] l] eqn:E; [reflexivity|]. exfalso.
  assert (I : In (r, c, w) (region_cells (r0, r1, c0, c1) [])) by (rewrite E; left; reflexivity). apply in_region in I. destruct I as (I1 & I2 & [[_ []]|[N _]]). apply N. f_equal; lia.
Qed.
(** Without a dimension element merged regions leave no marks at all. *)
Theorem C71_merges_refuted : forall strs xfs target w pre a c0 r0 c1 r1 post, xw_dim w = DimNone -> xw_items w = pre ++ XiMerge a c0 r0 c1 r1 :: post -> 0 <= c0 -> 0 <= r0 ->
  xw_writes strs xfs target w = xw_writes strs xfs target (mkXW (xw_pre w) DimNone (pre ++ post)).
Proof.
  intros strs xfs target w pre a c0 r0 c1 r1 post D E H1 H2. unfold xw_writes. cbn [xw_dim xw_items]. rewrite D, E, !flat_map_app. cbn [flat_map xitem_writes xdim_last fst snd]. rewrite region_empty; [reflexivity|]. lia.
Qed.
(** The last declared column of a sheet is not shown when nothing is written there. *)
Theorem C71_width_refuted : forall d docname a c1 r1 e, reach_fx (xd_fmt d) -> Forall w16 (xd_xfs d) -> has_attr a "ref" (a1_range 0 0 c1 r1) -> coord_ok c1 -> coord_ok r1 -> 1 <= c1 ->
  open_xml (xd_zip d) docname = inl (mkXml (xw_toks (mkXW [] (DimRange a 0 0 c1 r1) [])) e) ->
  exists s grid, parse_xsheet d docname = Ok (s, end_err e) /\ delivers raw s grid /\ (grid = [] \/ zlen grid = Z.max 1 r1 + 1) /\ Forall (fun row => zlen row = c1) grid.
Proof.
  intros d docname a c1 r1 e HX HF HA Hc Hr H1 E. destruct (xsheet_ok d docname _ e HX HF E) as (s & P & _ & _ & grid & D & _ & _ & Z).
  { split; [constructor|]. split; [|constructor]. cbn [xw_dim xdim_ok]. split; [exact HA|]. unfold coord_ok in *. lia. }
  exists s, grid. split; [exact P|]. split; [exact D|]. cbn [xw_writes xw_items flat_map xw_size xw_dim xdim_last fst snd map extent fold_right] in Z. destruct Z as [(_ & _ & Z & _)|[Z1 Z2]]; [lia|]. split; [right; exact Z1|]. eapply Forall_impl; [|exact Z2]. cbn. intros row. lia.
Qed.

(** ** C63 *)
(** A hyperlink on one cell: the cell shows the link target and carries it as its link, ... *)
Theorem C63_link : forall d docname w e pre a c r id post t, reach_fx (xd_fmt d) -> Forall w16 (xd_xfs d) -> open_xml (xd_zip d) docname = inl (mkXml (xw_toks w) e) -> xw_ok (zlen (xd_strings d)) w ->
  xw_items w = pre ++ XiLink a c r (Some id) :: post -> sfind id (sheet_links (xd_zip d) docname) = Some t -> t <> [] ->
  last_write (flat_map (xitem_writes (xd_strings d) (xd_xfs d) (fun k => sfind k (sheet_links (xd_zip d) docname)) (xdim_last (xw_dim w))) post) r c = None ->
  exists s grid row, parse_xsheet d docname = Ok (s, end_err e) /\ delivers raw s grid /\ nth_error grid (Z.to_nat r) = Some row /\
    nth_error row (Z.to_nat c) = Some [GStr t; GCType HyperlinkStringCell; GInt KUint16 0; GStr t].
Proof.
  intros d docname w e pre a c r id post t HX HF E OK EI ES TN LP. destruct (xsheet_ok d docname w e HX HF E OK) as (s & P & _ & _ & grid & D & G1 & G2 & _).
  assert (LW : last_write (xw_writes (xd_strings d) (xd_xfs d) (fun k => sfind k (sheet_links (xd_zip d) docname)) w) r c = Some (WLink t)).
  { unfold xw_writes. rewrite EI, flat_map_app, last_write_app. cbn [flat_map xitem_writes]. rewrite ES. cbn [app last_write]. rewrite LP, !Z.eqb_refl. reflexivity. }
  destruct (G2 r c) as (row & cl & N1 & N2); [left; rewrite LW; discriminate|]. exists s, grid, row. repeat split; auto. rewrite N2. f_equal.
  destruct OK as (_ & _ & OI). rewrite EI in OI. apply Forall_app in OI. destruct OI as [_ OI]. inversion OI as [|? ? OL _]; subst. cbn [xitem_ok] in OL. destruct OL as (_ & Hc & Hr & _). unfold coord_ok in *.
  specialize (G1 _ _ _ _ N1 N2). rewrite !Z2Nat.id in G1 by lia. rewrite LW in G1. cbn [wrote] in G1. destruct t; [congruence|exact G1].
Qed.
(** ... whatever the cell held before: its own text is lost. *)
Theorem C63_text_lost_refuted : forall d docname w e pre cell mid a id post t, reach_fx (xd_fmt d) -> Forall w16 (xd_xfs d) -> open_xml (xd_zip d) docname = inl (mkXml (xw_toks w) e) -> xw_ok (zlen (xd_strings d)) w ->
  xw_items w = pre ++ XiCell cell :: mid ++ XiLink a (xc_col cell) (xc_row cell) (Some id) :: post -> sfind id (sheet_links (xd_zip d) docname) = Some t -> t <> [] ->
  last_write (flat_map (xitem_writes (xd_strings d) (xd_xfs d) (fun k => sfind k (sheet_links (xd_zip d) docname)) (xdim_last (xw_dim w))) post) (xc_row cell) (xc_col cell) = None ->
  exists s grid row, parse_xsheet d docname = Ok (s, end_err e) /\ delivers raw s grid /\ nth_error grid (Z.to_nat (xc_row cell)) = Some row /\
    nth_error row (Z.to_nat (xc_col cell)) = Some [GStr t; GCType HyperlinkStringCell; GInt KUint16 0; GStr t].
Proof.
  intros d docname w e pre cell mid a id post t HX HF E OK EI ES TN LP. eapply (C63_link d docname w e (pre ++ XiCell cell :: mid) a _ _ id post t); eauto. rewrite EI, <- app_assoc. reflexivity.
Qed.
(** A link without a known target, such as one inside the workbook, shows as no value at all. *)
Theorem C63_unknown_refuted : forall d docname w e pre a c r id post, reach_fx (xd_fmt d) -> Forall w16 (xd_xfs d) -> open_xml (xd_zip d) docname = inl (mkXml (xw_toks w) e) -> xw_ok (zlen (xd_strings d)) w ->
  xw_items w = pre ++ XiLink a c r id :: post -> sfind (match id with Some i => i | None => [] end) (sheet_links (xd_zip d) docname) = None ->
  last_write (flat_map (xitem_writes (xd_strings d) (xd_xfs d) (fun k => sfind k (sheet_links (xd_zip d) docname)) (xdim_last (xw_dim w))) post) r c = None ->
  exists s grid row, parse_xsheet d docname = Ok (s, end_err e) /\ delivers raw s grid /\ nth_error grid (Z.to_nat r) = Some row /\
    nth_error row (Z.to_nat c) = Some [GNil; GCType HyperlinkStringCell; GInt KUint16 0; GStr []].
Proof.
  intros d docname w e pre a c r id post HX HF E OK EI ES LP. destruct (xsheet_ok d docname w e HX HF E OK) as (s & P & _ & _ & grid & D & G1 & G2 & _).
  assert (LW : last_write (xw_writes (xd_strings d) (xd_xfs d) (fun k => sfind k (sheet_links (xd_zip d) docname)) w) r c = Some (WLink [])).
  { unfold xw_writes. rewrite EI, flat_map_app, last_write_app. cbn [flat_map xitem_writes]. rewrite ES. cbn [app last_write]. rewrite LP, !Z.eqb_refl. reflexivity. }
  destruct (G2 r c) as (row & cl & N1 & N2); [left; rewrite LW; discriminate|]. exists s, grid, row. repeat split; auto. rewrite N2. f_equal.
  destruct OK as (_ & _ & OI). rewrite EI in OI. apply Forall_app in OI. destruct OI as [_ OI]. inversion OI as [|? ? OL _]; subst. cbn [xitem_ok] in OL. destruct OL as (_ & Hc & Hr & _). unfold coord_ok in *.
  specialize (G1 _ _ _ _ N1 N2). rewrite !Z2Nat.id in G1 by lia. rewrite LW in G1. exact G1.
Qed.
(** A link on a range of cells crashes the reader. *)
Lemma loop_more : forall l m maxv a v, parse_uint_loop maxv a l = (v, PNone) -> parse_uint_loop maxv a (l ++ m) = parse_uint_loop maxv v m.
Proof.
  induction l as [|c l IH]; intros m maxv a v E; cbn [parse_uint_loop app] in *; [injection E as <-; reflexivity|]. destruct (_ && _); [|discriminate]. cbv zeta in *. destruct (_ <? _); [discriminate|]. apply IH. exact E.
Qed.
Lemma int_stop : forall n c x, 0 <= n < 2 ^ 63 -> ~ digit c -> parse_int 64 (utoa n ++ c :: x) = (0, PSyntax).
Proof.
  intros n c x Hn Hc. destruct (utoa_spec n) as (D & _ & N); [lia|]. pose proof (parse_uint_utoa 64 n) as P. change (2 ^ 64 - 1) with 18446744073709551615 in P. change (2 ^ 63) with 9223372036854775808 in Hn. specialize (P ltac:(lia)).
  destruct (utoa n) as [|u l] eqn:E; [congruence|]. assert (DU : digit u) by (inversion D; auto). unfold digit in DU. cbn [app]. unfold parse_int. replace ((u =? 43) || (u =? 45)) with false by lia. unfold parse_uint in P.
  change (u :: l ++ c :: x) with ((u :: l) ++ c :: x). unfold parse_uint. cbn [app]. change (u :: l ++ c :: x) with ((u :: l) ++ c :: x). rewrite (loop_more _ _ _ _ _ P). cbn [parse_uint_loop].
  replace ((48 <=? c) && (c <=? 57)) with false by (unfold digit in Hc; lia). reflexivity.
Qed.
Lemma letters_nodigit : forall c, 0 <= c -> Forall (fun x => ~ digit x) (letters c).
Proof. intros c H. eapply Forall_impl; [|apply letters_ok; exact H]. intros x Hx. unfold letter, digit in *. lia. Qed.
Lemma range_row : forall c0 r0 c1 r1, coord_ok c0 -> coord_ok r0 -> coord_ok c1 -> coord_ok r1 -> ~ In 67 (letters c1) \/ zlen (a1_range c0 r0 c1 r1) <= 19 ->
  ref_to_indexes (a1_range c0 r0 c1 r1) = Panic \/ exists c, ref_to_indexes (a1_range c0 r0 c1 r1) = Ok (c, -1).
Proof.
  intros c0 r0 c1 r1 H0 H1 H2 H3 HC. unfold coord_ok in *. destruct (letters_ok c0) as (_ & _ & NE); [lia|]. pose proof (letters_nodigit c0 ltac:(lia)) as ND.
  destruct (utoa_spec (r0 + 1)) as (D & _ & N); [lia|]. destruct (utoa_spec (r1 + 1)) as (D1 & _ & _); [lia|]. destruct (utoa (r0 + 1)) as [|u l] eqn:E; [congruence|]. inversion D as [|? ? DU DL]; subst.
  assert (R : a1_range c0 r0 c1 r1 = letters c0 ++ u :: (l ++ 58 :: a1 c1 r1)) by (unfold a1_range; unfold a1 at 1; rewrite E, <- !app_assoc; reflexivity). rewrite R in *.
  assert (NL : ~ In 67 l) by (intros I; rewrite Forall_forall in DL; apply DL in I; unfold digit in I; lia).
  destruct (first_byte 67 (l ++ 58 :: a1 c1 r1)) as [(m & t & EM & NC)|NC].
  - rewrite EM in *. assert (C : c_ref (letters c0) u m t) by (split; auto). destruct (Z_lt_dec (1 + zlen m) (zlen (letters c0))) as [L|L]; [left; apply C58_panics; exists (letters c0), u, m, t; auto|].
    destruct HC as [HC|HC]; [|right; apply C58_R1C1_refuted; auto; lia]. exfalso. assert (I : In 67 (l ++ 58 :: a1 c1 r1)) by (rewrite EM; apply in_or_app; right; left; reflexivity).
    apply in_app_or in I. destruct I as [I|[I|I]]; [contradiction|discriminate|]. unfold a1 in I. apply in_app_or in I. destruct I as [I|I]; [contradiction|]. rewrite Forall_forall in D1. apply D1 in I. unfold digit in I. lia.
  - right. exists (col2int (letters c0)). unfold ref_to_indexes. rewrite index_digit by auto. assert (1 <= zlen (letters c0)) by (destruct (letters c0) as [|x a]; [congruence|rewrite zlen_cons; pose proof (zlen_nonneg _ a); lia]).
    rewrite zlen_app, zlen_cons. pose proof (zlen_nonneg _ (l ++ 58 :: a1 c1 r1)). destruct (Z.ltb_spec (zlen (letters c0) + (1 + zlen (l ++ 58 :: a1 c1 r1))) 2); [lia|]. destruct (Z.leb_spec (zlen (letters c0)) 0); [lia|].
    rewrite zdrop_app_exact, ztake_app_exact, index_no_C by (intros [I|I]; [unfold digit in DU; lia|contradiction]). change (-1 =? -1) with true. cbn iota.
    change (u :: l ++ 58 :: a1 c1 r1) with ((u :: l) ++ 58 :: a1 c1 r1). rewrite <- E, int_stop; [reflexivity| |unfold digit; lia]. change (2 ^ 63) with 9223372036854775808. lia.
Qed.
Lemma put_row_panic : forall s c t f, reach_fx (sh_fx s) -> put s (-1) c (GStr t) f = Panic.
Proof.
  Local Transparent put. intros s c t f HX. unfold put. set (s' := grow_for s (-1) c). assert (FX : sh_fx s' = sh_fx s) by (unfold s', grow_for, resize; repeat (destruct (_ || _) || destruct (_ <=? _)); reflexivity).
  destruct (make_put_cell_spec (sh_fx s') (GStr t) f) as (cl & E & _); [rewrite FX; exact HX|apply good_str|]. rewrite E. cbn [bind]. unfold put_cell. unfold idx at 1. change (0 <=? -1) with false. reflexivity.
  Local Opaque put.
Qed.
Theorem C63_range_refuted : forall d docname w a c0 r0 c1 r1 rest e, reach_fx (xd_fmt d) -> Forall w16 (xd_xfs d) -> xw_ok (zlen (xd_strings d)) w ->
  open_xml (xd_zip d) docname = inl (mkXml (xw_toks w ++ XStart (bs "hyperlink") a :: rest) e) -> has_attr a "ref" (a1_range c0 r0 c1 r1) -> coord_ok c0 -> coord_ok r0 -> coord_ok c1 -> coord_ok r1 ->
  ~ In 67 (letters c1) \/ zlen (a1_range c0 r0 c1 r1) <= 19 -> parse_xsheet d docname = Panic.
Proof.
  intros d docname w a c0 r0 c1 r1 rest e HX HF OK E HA H0 H1 H2 H3 HC. unfold parse_xsheet. rewrite E. cbn [xm_toks xm_end]. set (links := sheet_links (xd_zip d) docname).
  destruct (xsheet_prefix d links w HX HF OK) as (t & f & s & s0 & ws0 & E1 & _ & FX & _). rewrite sheet_toks_app, E1. cbn [bind sheet_toks sheet_tok]. change (str_eqb (bs "hyperlink") (bs "dimension")) with false. change (str_eqb (bs "hyperlink") (bs "c")) with false. change (str_eqb (bs "hyperlink") (bs "mergeCell")) with false. change (str_eqb (bs "hyperlink") (bs "hyperlink")) with true. cbn iota.
  unfold sheet_link. rewrite (get_has _ _ _ HA). destruct (range_row c0 r0 c1 r1 H0 H1 H2 H3 HC) as [->|(c & ->)]; [reflexivity|]. cbn [bind xp_sheet]. rewrite put_row_panic by (rewrite FX; exact HX). reflexivity.
Qed.
Example ex_C63_range : a1_range 0 0 1 2 = bs "A1:B3" /\ a1_range 0 0 2 2 = bs "A1:C3" /\ In 67 (letters 2) /\ zlen (a1_range 0 0 2 2) <= 19 /\ ~ In 67 (letters 16383).
Proof. repeat split; try (vm_compute; reflexivity); vm_compute; intuition discriminate. Qed.

(** ** C70 *)
(** A package whose workbook is named by an absolute target, as the standard allows, cannot be
    opened: no part name starts with a slash. *)
Lemma base_after : forall x base, base <> [] -> ~ In 47 base -> path_base (x ++ 47 :: base) = base.
Proof.
  intros x base N NI. unfold path_base. destruct (x ++ 47 :: base) as [|c0 t0] eqn:E0; [destruct x; discriminate|]. rewrite <- E0. clear c0 t0 E0.
  assert (T : rev (trim_left (Z.eqb slash) (rev (x ++ 47 :: base))) = x ++ 47 :: base).
  { change (47 :: base) with ([47] ++ base). rewrite app_assoc, rev_app_distr. destruct (rev base) as [|c t] eqn:ER; [apply (f_equal (@rev Z)) in ER; rewrite rev_involutive in ER; cbn in ER; congruence|].
    assert (c <> 47). { intros ->. apply NI. apply in_rev. rewrite ER. left. reflexivity. }
    cbn [app trim_left]. change slash with 47. rewrite (proj2 (Z.eqb_neq 47 c)) by auto. rewrite app_comm_cons, rev_app_distr, rev_involutive, <- ER, rev_involutive. reflexivity. }
  cbv zeta. rewrite T. assert (L : last_index_any [slash] (x ++ 47 :: base) = zlen x).
  { unfold last_index_any. replace (x ++ 47 :: base) with ((x ++ [47]) ++ base) by (rewrite <- app_assoc; reflexivity). rewrite last_index_app, last_index_none; [rewrite last_index_app; cbn [last_index_from existsb]; change (47 =? slash) with true; cbn [orb]; lia|].
    apply Forall_forall. intros y Hy. cbn [existsb]. rewrite (proj2 (Z.eqb_neq y slash)); [reflexivity|]. intros ->. contradiction. }
  rewrite L. replace (x ++ 47 :: base) with ((x ++ [47]) ++ base) by (rewrite <- app_assoc; reflexivity). replace (zlen x + 1) with (zlen (x ++ [47])) by (rewrite zlen_app; reflexivity). rewrite zdrop_app_exact. destruct base; [congruence|reflexivity].
Qed.
Lemma trim_after : forall x base, trim_suffix (x ++ base) base = x.
Proof.
  intros. unfold trim_suffix. rewrite zlen_app. replace (zlen x + zlen base - zlen base) with (zlen x) by lia. pose proof (zlen_nonneg _ x). rewrite (proj2 (Z.leb_le _ _)) by auto. rewrite zdrop_app_exact, str_eqb_refl. cbn [andb]. apply ztake_app_exact.
Qed.
Lemma join_rooted : forall x l, exists t, path_join ((47 :: x) :: l) = 47 :: t.
Proof.
  intros x l. cbn [path_join]. assert (J : exists y, join [slash] ((47 :: x) :: l) = 47 :: y) by (destruct l; cbn [join app]; eauto). destruct J as (y & ->). unfold path_clean. change (47 =? slash) with true. cbn iota zeta.
  change ([slash] ++ ?k) with (slash :: k). eexists. reflexivity.
Qed.
Lemma open_slash : forall z t, Forall (fun p : gostr * (xml + gerr) => hd 0 (fst p) <> 47) z -> open_xml z (47 :: t) = inr EEOF.
Proof.
  induction z as [|[n p] z IH]; intros t F; [reflexivity|]. inversion F as [|? ? H F2]; subst. cbn [open_xml fst] in *. destruct (str_eqb n (47 :: t)) eqn:E; [apply str_eqb_eq in E; subst; cbn in H; congruence|]. auto.
Qed.
Theorem C70_absolute_refuted : forall order z l a0 a a1 r r1 segs, part_is z (bs "_rels/.rels") l -> elements "Relationship" l = a0 ++ a :: a1 -> is_rel a r -> of_type "officeDocument" r = true ->
  rl_target r = target_text (TAbs segs) -> segs <> [] -> Forall seg_ok segs -> Forall2 is_rel a1 r1 -> Forall (fun q => of_type "officeDocument" q = false) r1 ->
  Forall (fun p => hd 0 (fst p) <> 47) z -> open_xlsx order (XZip z) = Err EEOF.
Proof.
  intros order z l a0 a a1 r r1 segs PI EL HR TY TG NS FS F1 N1 NZ. unfold open_xlsx, open_doc. unfold part_is in PI. rewrite PI. unfold parse_rels. cbn [xm_toks xm_end end_err]. rewrite rels_loop_elements, EL, fold_left_app. cbn [fold_left].
  change (@nil Z) with (subdir []). rewrite (rel_elem_ok [] _ a r HR), TY. set (d0 := fold_left _ a0 _). destruct (rels_fold [] a1 r1 (set_rels d0 (rl_target r) (sput (rl_type r) (sput (rl_id r) (rel_file [] r) (rels_of (xd_rels d0) (rl_type r))) (xd_rels d0))) F1 N1) as (R & -> & _).
  cbn [set_rels xd_primary]. rewrite TG. cbn [target_text]. cbn zeta. destruct (exists_last NS) as (dir & base & ->). apply Forall_app in FS. destruct FS as [FD FB]. inversion FB as [|? ? (B1 & _ & _ & B2) _]; subst.
  assert (X : exists x, 47 :: path (dir ++ [base]) = x ++ 47 :: base /\ (x = [] \/ hd 0 x = 47)).
  { rewrite path_subdir. destruct dir as [|s dir]; [exists []; auto|]. exists (47 :: path (s :: dir)). split; [|auto]. unfold subdir. rewrite <- app_assoc. reflexivity. }
  destruct X as (x & EX & HX). rewrite EX. destruct (x ++ 47 :: base) as [|c0 t0] eqn:E0; [destruct x; discriminate|]. rewrite <- E0. rewrite base_after by auto.
  replace (x ++ 47 :: base) with ((x ++ [47]) ++ base) by (rewrite <- app_assoc; reflexivity). rewrite trim_after.
  assert (Y : exists y, x ++ [47] = 47 :: y) by (destruct HX as [->|HX]; [exists []; reflexivity|destruct x as [|c x]; [discriminate|cbn in HX; subst; eexists; reflexivity]]). destruct Y as (y & ->).
  destruct (join_rooted y [bs "_rels"; base ++ bs ".rels"]) as (t & ->). rewrite open_slash by exact NZ. reflexivity.
Qed.

(** ** C69 *)
Theorem C69_shared_index_refuted : forall d docname w a c r s l t rest e, reach_fx (xd_fmt d) -> Forall w16 (xd_xfs d) -> xw_ok (zlen (xd_strings d)) w ->
  open_xml (xd_zip d) docname = inl (mkXml (xw_toks w ++ XStart (bs "c") a :: l ++ XChars t :: rest) e) ->
  has_attr a "r" (a1 c r) -> coord_ok c -> coord_ok r -> opt_attr a "s" (option_map utoa s) -> (forall k, s = Some k -> 0 <= k < 2 ^ 63) -> has_attr a "t" (bs "s") -> Forall silent l ->
  ~ 0 <= fst (parse_int 64 t) < zlen (xd_strings d) -> parse_xsheet d docname = Panic.
Proof.
  intros d docname w a c r s l t rest e HX HF OK E HR Hc Hr HS HB HT FL NI. unfold parse_xsheet. rewrite E. cbn [xm_toks xm_end]. set (links := sheet_links (xd_zip d) docname).
  destruct (xsheet_prefix d links w HX HF OK) as (t0 & f & sh & s0 & ws0 & E1 & _). rewrite sheet_toks_app, E1. cbn [bind sheet_toks sheet_tok]. change (str_eqb (bs "c") (bs "dimension")) with false. change (str_eqb (bs "c") (bs "c")) with true. cbn iota. unfold sheet_c. rewrite (style_get d a s HS HB). cbn [bind].
  rewrite (get_has _ _ _ HR), (get_has _ _ _ HT). rewrite sheet_toks_app, silent_toks by exact FL. cbn [bind sheet_toks sheet_tok]. unfold sheet_chars. cbn [xp_cell xp_type]. destruct (a1 c r) as [|c0 t1] eqn:EA; [exfalso; exact (a1_ne c r Hc EA)|]. cbn iota. rewrite <- EA, ref_a1 by auto. cbn [bind].
  unfold coord_ok in *. replace ((0 <=? c) && (0 <=? r)) with true by lia. change (str_eqb (bs "s") []) with false. cbn iota. unfold cell_text_value. change (str_eqb (bs "s") (bs "b")) with false. change (str_eqb (bs "s") (bs "n")) with false. change (str_eqb (bs "s") (bs "s")) with true. cbn iota.
  rewrite idx_out; [reflexivity|lia].
Qed.
Theorem C69_bool_refuted : forall d docname w a c r s l rest e, reach_fx (xd_fmt d) -> Forall w16 (xd_xfs d) -> xw_ok (zlen (xd_strings d)) w ->
  open_xml (xd_zip d) docname = inl (mkXml (xw_toks w ++ XStart (bs "c") a :: l ++ XChars [] :: rest) e) ->
  has_attr a "r" (a1 c r) -> coord_ok c -> coord_ok r -> opt_attr a "s" (option_map utoa s) -> (forall k, s = Some k -> 0 <= k < 2 ^ 63) -> has_attr a "t" (bs "b") -> Forall silent l -> parse_xsheet d docname = Panic.
Proof.
  intros d docname w a c r s l rest e HX HF OK E HR Hc Hr HS HB HT FL. unfold parse_xsheet. rewrite E. cbn [xm_toks xm_end]. set (links := sheet_links (xd_zip d) docname).
  destruct (xsheet_prefix d links w HX HF OK) as (t0 & f & sh & s0 & ws0 & E1 & _). rewrite sheet_toks_app, E1. cbn [bind sheet_toks sheet_tok]. change (str_eqb (bs "c") (bs "dimension")) with false. change (str_eqb (bs "c") (bs "c")) with true. cbn iota. unfold sheet_c. rewrite (style_get d a s HS HB). cbn [bind].
  rewrite (get_has _ _ _ HR), (get_has _ _ _ HT). rewrite sheet_toks_app, silent_toks by exact FL. cbn [bind sheet_toks sheet_tok]. unfold sheet_chars. cbn [xp_cell xp_type]. destruct (a1 c r) as [|c0 t1] eqn:EA; [exfalso; exact (a1_ne c r Hc EA)|]. cbn iota. rewrite <- EA, ref_a1 by auto. cbn [bind].
  unfold coord_ok in *. replace ((0 <=? c) && (0 <=? r)) with true by lia. reflexivity.
Qed.
Theorem C69_style_index_refuted : forall d docname w a k rest e, reach_fx (xd_fmt d) -> Forall w16 (xd_xfs d) -> xw_ok (zlen (xd_strings d)) w ->
  open_xml (xd_zip d) docname = inl (mkXml (xw_toks w ++ XStart (bs "c") a :: rest) e) -> has_attr a "s" (itoa k) -> - 2 ^ 63 <= k < 0 -> parse_xsheet d docname = Panic.
Proof.
  intros d docname w a k rest e HX HF OK E HS HK. unfold parse_xsheet. rewrite E. cbn [xm_toks xm_end]. set (links := sheet_links (xd_zip d) docname).
  destruct (xsheet_prefix d links w HX HF OK) as (t0 & f & sh & s0 & ws0 & E1 & _). rewrite sheet_toks_app, E1. cbn [bind sheet_toks sheet_tok]. change (str_eqb (bs "c") (bs "dimension")) with false. change (str_eqb (bs "c") (bs "c")) with true. cbn iota. unfold sheet_c, int_attr. rewrite (get_has _ _ _ HS), parse_int_itoa by (change (64 - 1) with 63; lia). cbn [fst].
  pose proof (zlen_nonneg _ (xd_xfs d)). destruct (Z.ltb_spec k (zlen (xd_xfs d))); [|lia]. rewrite idx_out by lia. reflexivity.
Qed.
(** style sheets: an xf outside the two tables, a negative count, a negative xfId *)
Theorem C69_styles_refuted : forall d l a rest e, Forall spiece_ok l ->
  parse_styles (mkXml (style_toks l ++ XStart (bs "xf") a :: rest) e) d = Panic /\
  (forall n, has_attr a "count" (itoa n) -> - 2 ^ 63 <= n < 0 -> parse_styles (mkXml (style_toks l ++ XStart (bs "cellXfs") a :: rest) e) d = Panic) /\
  (forall ac xl b n, opt_attr ac "count" None -> Forall xfe_ok xl -> has_attr b "xfId" (itoa n) -> - 2 ^ 63 <= n < 0 ->
     parse_styles (mkXml (style_toks l ++ XStart (bs "cellXfs") ac :: flat_map (fun x => XStart (bs "xf") (xf_attrs x) :: xf_rest x ++ [XEnd (bs "xf")]) xl ++ XStart (bs "xf") b :: rest) e) d = Panic).
Proof.
  intros d l a rest e F. unfold parse_styles. cbn [xm_toks xm_end]. destruct (style_pieces l (mkSty [] 0 [] (xd_fmt d)) F eq_refl) as (sb & ST). set (st := mkSty sb 0 _ _) in ST. assert (S0 : sy_section st = 0) by reflexivity. repeat split.
  - rewrite styles_app, ST. cbn [bind styles_loop]. unfold style_start. change (str_eqb (bs "xf") (bs "numFmt")) with false. change (str_eqb (bs "xf") (bs "cellStyleXfs")) with false. change (str_eqb (bs "xf") (bs "cellXfs")) with false. change (str_eqb (bs "xf") (bs "xf")) with true. cbn iota.
    unfold style_xf. rewrite S0. reflexivity.
  - intros n HA HN. rewrite styles_app, ST. cbn [bind styles_loop]. unfold style_start. change (str_eqb (bs "cellXfs") (bs "numFmt")) with false. change (str_eqb (bs "cellXfs") (bs "cellStyleXfs")) with false. change (str_eqb (bs "cellXfs") (bs "cellXfs")) with true. cbn iota.
    unfold int_attr. rewrite (get_has _ _ _ HA), parse_int_itoa by (change (64 - 1) with 63; lia). cbn [fst]. destruct (Z.ltb_spec n 0); [reflexivity|lia].
  - intros ac xl b n HC FX HA HN. rewrite styles_app, ST. cbn [bind styles_loop]. unfold style_start at 1. change (str_eqb (bs "cellXfs") (bs "numFmt")) with false. change (str_eqb (bs "cellXfs") (bs "cellStyleXfs")) with false. change (str_eqb (bs "cellXfs") (bs "cellXfs")) with true. cbn iota.
    rewrite (get_opt _ _ _ HC). change (int_attr 64 []) with 0. change ((0 <? 0) || (2 ^ 48 <? 2 * 0)) with false. cbn [bind]. rewrite styles_app, cell_xfs by auto. cbn [bind styles_loop sy_section sy_base sy_xfs sy_fmt].
    unfold style_start. change (str_eqb (bs "xf") (bs "numFmt")) with false. change (str_eqb (bs "xf") (bs "cellStyleXfs")) with false. change (str_eqb (bs "xf") (bs "cellXfs")) with false. change (str_eqb (bs "xf") (bs "xf")) with true. cbn iota. unfold style_xf. cbn [sy_section sy_base]. change (2 =? 1) with false. change (2 =? 2) with true. cbn iota.
    unfold int_attr at 1. rewrite (get_has _ _ _ HA). unfold int_attr. rewrite parse_int_itoa by (change (64 - 1) with 63; lia). cbn [fst]. pose proof (zlen_nonneg _ (sy_base st)). destruct (Z.ltb_spec n (zlen (sy_base st))); [|lia]. rewrite idx_out by lia. reflexivity.
Qed.

(** ** C64 *)
(** What a caller does with an open document: Get by name, and Next on the collection that a Get
    returned (named by the sheet it belongs to). *)
Inductive xop := HGet (name : gostr) | HNext (i : nat).
Definition do_op (o : xobj) (p : xop) : res xobj :=
  match p with
  | HGet name => match doc_get o name with Ok (o, _) => Ok o | Err _ => Ok o | Panic => Panic | NoFuel => NoFuel end
  | HNext i => '(_, o) <- coll_next o i ;; Ok o
  end.
Fixpoint do_ops (o : xobj) (l : list xop) : res xobj := match l with [] => Ok o | p :: l => o <- do_op o p ;; do_ops o l end.
Definition nexts (i : nat) (l : list xop) : nat := List.length (filter (fun p => match p with HNext j => Nat.eqb i j | HGet _ => false end) l).
Definition advance (n : nat) (s : sheet) : sheet := Nat.iter n (fun s => snd (next s)) s.
Definition fresh (o : xobj) : Prop := xo_closed o = false /\ Forall (fun s => xh_err s = None /\ xh_wrapped s = None) (xd_sheets (xo_doc o)).

Lemma toks_ws : forall d l links toks st, sheet_toks (with_sheets d l) links toks st = sheet_toks d links toks st.
Proof. intros d l links toks. induction toks as [|t toks IH]; intros st; [reflexivity|]. cbn [sheet_toks]. assert (E : sheet_tok (with_sheets d l) links st t = sheet_tok d links st t) by (destruct t; reflexivity). rewrite E. destruct (sheet_tok d links st t); cbn [bind]; auto. Qed.
Lemma parse_ws : forall d l n, parse_xsheet (with_sheets d l) n = parse_xsheet d n.
Proof. intros d l n. unfold parse_xsheet. cbn [with_sheets xd_zip xd_fmt]. destruct (open_xml (xd_zip d) n); [|reflexivity]. fold (with_sheets d l). rewrite toks_ws. reflexivity. Qed.

(** the state of one sheet after a history *)
Definition same_entry (d : xdoc) (n : nat) (a b : xsheet_st) : Prop :=
  xh_name b = xh_name a /\ xh_doc b = xh_doc a /\
  (n = O /\ xh_err b = None /\ xh_wrapped b = None \/ exists sh e, parse_xsheet d (xh_doc a) = Ok (sh, e) /\ xh_err b = Some e /\ xh_wrapped b = Some (advance n sh)).
Definition tracked (o : xobj) (h : list xop) (o' : xobj) : Prop :=
  xo_closed o' = xo_closed o /\ xo_doc o' = with_sheets (xo_doc o) (xd_sheets (xo_doc o')) /\
  List.length (xd_sheets (xo_doc o')) = List.length (xd_sheets (xo_doc o)) /\
  forall i a b, nth_error (xd_sheets (xo_doc o)) i = Some a -> nth_error (xd_sheets (xo_doc o')) i = Some b -> same_entry (xo_doc o) (nexts i h) a b.
Lemma find_same : forall l l' name i, map xh_name l' = map xh_name l -> find_sheet l name i = None /\ find_sheet l' name i = None \/
  exists k a b, find_sheet l name i = Some ((i + k)%nat, a) /\ find_sheet l' name i = Some ((i + k)%nat, b) /\ nth_error l k = Some a /\ nth_error l' k = Some b.
Proof.
  induction l as [|a l IH]; intros l' name i E; destruct l' as [|b l']; try discriminate; [left; auto|]. cbn [map] in E. injection E as E1 E2. cbn [find_sheet]. rewrite E1. destruct (str_eqb (xh_name a) name).
  - right. exists O, a, b. rewrite Nat.add_0_r. auto.
  - destruct (IH l' name (S i) E2) as [[H1 H2]|(k & x & y & H1 & H2 & H3 & H4)]; [left; auto|]. right. exists (S k), x, y. rewrite <- plus_n_Sm. cbn [nth_error]. auto.
Qed.
Lemma nth_set_other : forall A (l : list A) i j x, i <> j -> (i < List.length l)%nat -> nth_error (set_nth l i x) j = nth_error l j.
Proof.
  intros A l. unfold set_nth. induction l as [|a l IH]; intros i j x N L; [cbn in L; lia|]. destruct i as [|i], j as [|j]; cbn [firstn skipn app nth_error List.length] in *; [lia|reflexivity|reflexivity|]. apply IH; lia.
Qed.
Lemma length_set : forall A (l : list A) i x, (i < List.length l)%nat -> List.length (set_nth l i x) = List.length l.
Proof. intros A l i x L. unfold set_nth. rewrite app_length, firstn_length. cbn [List.length]. rewrite skipn_length. lia. Qed.
Lemma tracked_names : forall o h o', tracked o h o' -> map xh_name (xd_sheets (xo_doc o')) = map xh_name (xd_sheets (xo_doc o)).
Proof.
  intros o h o' (_ & _ & L & H). apply nth_ext with (d := []) (d' := []); [rewrite !map_length; exact L|]. intros i Hi. rewrite map_length in Hi.
  destruct (nth_error (xd_sheets (xo_doc o')) i) as [b|] eqn:EB; [|apply nth_error_None in EB; lia]. destruct (nth_error (xd_sheets (xo_doc o)) i) as [a|] eqn:EA; [|apply nth_error_None in EA; lia].
  destruct (H i a b EA EB) as (N & _). rewrite (nth_error_nth _ _ _ (map_nth_error xh_name _ _ EB)), (nth_error_nth _ _ _ (map_nth_error xh_name _ _ EA)). exact N.
Qed.
Lemma advance_S : forall n s, advance (S n) s = snd (next (advance n s)).
Proof. reflexivity. Qed.
Lemma nexts_app : forall i a b, nexts i (a ++ b) = (nexts i a + nexts i b)%nat.
Proof. intros. unfold nexts. rewrite filter_app, app_length. reflexivity. Qed.
Lemma get_tracked : forall o h o' name o2 i e, tracked o h o' -> doc_get o' name = Ok (o2, (i, e)) ->
  tracked o (h ++ [HGet name]) o2 /\ exists a b sh, find_sheet (xd_sheets (xo_doc o)) name 0 = Some (i, a) /\ nth_error (xd_sheets (xo_doc o)) i = Some a /\ nth_error (xd_sheets (xo_doc o2)) i = Some b /\
    parse_xsheet (xo_doc o) (xh_doc a) = Ok (sh, e) /\ xh_err b = Some e /\ xh_wrapped b = Some (advance (nexts i h) sh).
Proof.
  intros o h o' name o2 i e T G. pose proof (tracked_names _ _ _ T) as NM. destruct T as (C & D & L & H). unfold doc_get in G. destruct (xo_closed o') eqn:CC; [discriminate|].
  assert (NX : forall j, nexts j (h ++ [HGet name]) = nexts j h) by (intros; rewrite nexts_app; cbn; lia).
  destruct (find_same (xd_sheets (xo_doc o)) (xd_sheets (xo_doc o')) name 0 NM) as [[H1 H2]|(k & a & b & H1 & H2 & H3 & H4)]; [rewrite H2 in G; discriminate|]. cbn [Nat.add] in *. rewrite H2 in G. pose proof (H k a b H3 H4) as (S1 & S2 & S3).
  destruct S3 as [(S3 & S4 & S5)|(sh & e1 & S3 & S4 & S5)]; rewrite S4 in G.
  - rewrite D, parse_ws, S2 in G. destruct (parse_xsheet (xo_doc o) (xh_doc a)) as [[sh e1]| | |] eqn:P; try discriminate. cbn [bind] in G. injection G as <- <- <-.
    assert (LK : (k < List.length (xd_sheets (xo_doc o')))%nat) by (apply nth_error_Some; congruence).
    split.
    + split; [exact C|]. split; [reflexivity|]. cbn [xo_doc with_sheets xd_sheets]. rewrite length_set by (cbn; exact LK). split; [exact L|]. intros j a' b' EA EB. rewrite NX.
      destruct (Nat.eq_dec k j) as [<-|NE]; [|rewrite nth_set_other in EB by (auto; cbn; exact LK); apply H; auto].
      rewrite nth_set_nth in EB by (cbn; exact LK). injection EB as <-. assert (a' = a) by congruence. subst a'. split; [exact S1|]. split; [reflexivity|]. right. exists sh, e1. rewrite S3. auto.
    + exists a. eexists. exists sh. split; [exact H1|]. split; [exact H3|]. split; [cbn [xo_doc with_sheets xd_sheets]; apply nth_set_nth; cbn; exact LK|]. cbn [xh_err xh_wrapped]. rewrite S3. auto.
  - injection G as <- <- <-. split; [split; [rewrite CC; exact C|split; [exact D|split; [exact L|]]]; intros; rewrite NX; auto|]. exists a, b, sh. repeat split; auto.
Qed.
Lemma next_tracked : forall o h o' i b o2, tracked o h o' -> coll_next o' i = Ok (b, o2) -> tracked o (h ++ [HNext i]) o2.
Proof.
  intros o h o' i b o2 (C & D & L & H) G. unfold coll_next, coll in G. destruct (nth_error (xd_sheets (xo_doc o')) i) as [s|] eqn:ES; [|discriminate]. destruct (xh_wrapped s) as [w|] eqn:EW; [|discriminate].
  destruct (next w) as [b1 w1] eqn:EN. injection G as <- <-. unfold set_coll. rewrite ES. assert (LK : (i < List.length (xd_sheets (xo_doc o')))%nat) by (apply nth_error_Some; congruence).
  split; [exact C|]. split; [cbn [xo_doc]; rewrite D; reflexivity|]. cbn [xo_doc with_sheets xd_sheets]. rewrite length_set by exact LK. split; [exact L|]. intros j a b' EA EB. rewrite nexts_app. unfold nexts at 2. cbn [filter]. destruct (Nat.eqb_spec j i) as [->|NE].
  - cbn [List.length]. rewrite Nat.add_1_r. rewrite nth_set_nth in EB by exact LK. injection EB as <-. destruct (H i a s EA ES) as (S1 & S2 & S3). split; [exact S1|]. split; [exact S2|]. right. destruct S3 as [(_ & _ & S5)|(sh & e & S3 & S4 & S5)]; [congruence|].
    exists sh, e. split; [exact S3|]. split; [exact S4|]. cbn [xh_wrapped]. rewrite advance_S. assert (w = advance (nexts i h) sh) by congruence. subst w. rewrite EN. reflexivity.
  - cbn [List.length]. rewrite Nat.add_0_r. rewrite nth_set_other in EB by (auto; exact LK). apply H; auto.
Qed.
Lemma ops_tracked : forall l o h o' o2, tracked o h o' -> do_ops o' l = Ok o2 -> tracked o (h ++ l) o2.
Proof.
  induction l as [|p l IH]; intros o h o' o2 T E; cbn [do_ops] in E; [injection E as <-; rewrite app_nil_r; exact T|]. apply bind_inv in E. destruct E as (o3 & E1 & E2). replace (h ++ p :: l) with ((h ++ [p]) ++ l) by (rewrite <- app_assoc; reflexivity). eapply IH; [|exact E2].
  destruct p as [name|i]; cbn [do_op] in E1.
  - destruct (doc_get o' name) as [[o4 [i e]]| | |] eqn:G; try discriminate; injection E1 as <-.
    + eapply get_tracked in G; [|exact T]. apply G.
    + destruct T as (C & D & L & H). split; [exact C|split; [exact D|split; [exact L|]]]. intros. rewrite nexts_app. cbn. rewrite Nat.add_0_r. auto.
  - apply bind_inv in E1. destruct E1 as ((b & o4) & G & E1). injection E1 as <-. eapply next_tracked; eauto.
Qed.
Lemma tracked_refl : forall o, fresh o -> tracked o [] o.
Proof.
  intros o (C & F). split; [reflexivity|]. split; [destruct o as [d c]; destruct d; reflexivity|]. split; [reflexivity|]. intros i a b EA EB. assert (a = b) by congruence. subst b. split; [reflexivity|]. split; [reflexivity|]. left. rewrite Forall_forall in F. destruct (F a (nth_error_In _ _ EA)). auto.
Qed.
(** Whatever Gets and Nexts came before, Get answers with the sheet it would answer with on the
    fresh document, the same error, and the one collection of that sheet, moved on by the Nexts
    that have been called on it. *)
Theorem C64_history : forall o h o1 name o2 i e, fresh o -> do_ops o h = Ok o1 -> doc_get o1 name = Ok (o2, (i, e)) ->
  exists o0 sh, doc_get o name = Ok (o0, (i, e)) /\ coll o0 i = Some sh /\ coll o2 i = Some (advance (nexts i h) sh) /\ doc_list o1 = doc_list o.
Proof.
  intros o h o1 name o2 i e F E G. pose proof (ops_tracked h o [] o o1 (tracked_refl o F) E) as T. cbn [app] in T. pose proof (tracked_names _ _ _ T) as NM. pose proof T as (TC & _).
  destruct (get_tracked _ _ _ _ _ _ _ T G) as (_ & a & b & sh & H1 & H2 & H3 & H4 & H5 & H6). destruct F as (C & F). unfold doc_get. rewrite C, H1. rewrite Forall_forall in F. destruct (F a (nth_error_In _ _ H2)) as [N1 N2]. rewrite N1, H4. cbn [bind].
  eexists. exists sh. split; [reflexivity|]. unfold coll. cbn [xo_doc with_sheets xd_sheets]. assert (L : (i < List.length (xd_sheets (xo_doc o)))%nat) by (apply nth_error_Some; congruence). rewrite nth_set_nth by exact L. rewrite H3. split; [reflexivity|]. split; [exact H6|].
  unfold doc_list. rewrite TC, C, NM. reflexivity.
Qed.
(** Get of a name that is not listed fails, after any history. *)
Theorem C64_missing : forall o h o1 name, fresh o -> do_ops o h = Ok o1 -> ~ In name (doc_list o) -> doc_get o1 name = Err ENoSheet.
Proof.
  intros o h o1 name F E NI. pose proof (ops_tracked h o [] o o1 (tracked_refl o F) E) as T. cbn [app] in T. pose proof (tracked_names _ _ _ T) as NM. destruct T as (TC & _). destruct F as (C & _). unfold doc_get, doc_list in *. rewrite TC, C in *. rewrite find_none by (rewrite NM; exact NI). reflexivity.
Qed.
(** A collection that has been read to its end stays there: every later Get returns it at the
    end, so that the records cannot be read again. *)
Lemma advance_end : forall n s, fst (next s) = false -> advance n s = s.
Proof.
  intros n s H. destruct (next s) as [b s'] eqn:E. cbn [fst] in H. subst b. destruct (C12_stays_at_end s s' E) as [-> _]. induction n as [|n IH]; [reflexivity|]. rewrite advance_S, IH, E. reflexivity.
Qed.
Lemma advance_add : forall a b s, advance (a + b) s = advance a (advance b s).
Proof. induction a as [|a IH]; intros b s; [reflexivity|]. cbn [Nat.add]. rewrite !advance_S, IH. reflexivity. Qed.
Theorem C64_exhausted_refuted : forall o h1 o1 i o2 h2 o3 name o4 e, fresh o -> do_ops o h1 = Ok o1 -> coll_next o1 i = Ok (false, o2) -> do_ops o2 h2 = Ok o3 -> doc_get o3 name = Ok (o4, (i, e)) ->
  exists o5, coll_next o4 i = Ok (false, o5).
Proof.
  intros o h1 o1 i o2 h2 o3 name o4 e F E1 N E2 G. pose proof (ops_tracked h1 o [] o o1 (tracked_refl o F) E1) as T1. cbn [app] in T1. pose proof (next_tracked _ _ _ _ _ _ T1 N) as T2. pose proof (ops_tracked _ _ _ _ _ T2 E2) as T3.
  destruct (get_tracked _ _ _ _ _ _ _ T3 G) as (_ & a & b & sh & H1 & H2 & H3 & H4 & H5 & H6).
  assert (W : fst (next (advance (nexts i h1) sh)) = false).
  { unfold coll_next, coll in N. destruct T1 as (_ & _ & _ & T). destruct (nth_error (xd_sheets (xo_doc o1)) i) as [s|] eqn:ES; [|discriminate]. destruct (T i a s H2 ES) as (_ & _ & [(_ & _ & S5)|(sh' & e' & S3 & _ & S5)]); rewrite S5 in N; [discriminate|].
    assert (sh' = sh) by congruence. subst sh'. destruct (next (advance (nexts i h1) sh)) as [b1 w1]. injection N as -> _. reflexivity. }
  assert (A : advance (nexts i ((h1 ++ [HNext i]) ++ h2)) sh = advance (nexts i h1) sh).
  { rewrite !nexts_app. replace (nexts i h1 + nexts i [HNext i] + nexts i h2)%nat with ((nexts i [HNext i] + nexts i h2) + nexts i h1)%nat by lia. rewrite advance_add. apply advance_end. exact W. }
  rewrite A in H6. unfold coll_next, coll. rewrite H3, H6. destruct (next (advance (nexts i h1) sh)) as [b1 w1]. cbn [fst] in W. subst b1. eexists. reflexivity.
Qed.
(** A newly opened document is fresh. *)
Lemma rels_sheets : forall b l d, xd_sheets (rels_loop b l d) = xd_sheets d /\ xd_fmt (rels_loop b l d) = xd_fmt d.
Proof. induction l as [|t l IH]; intros d; [auto|]. destruct t; cbn [rels_loop]; auto. rewrite (proj1 (IH _)), (proj2 (IH _)). destruct (str_eqb _ _); auto. Qed.
Lemma workbook_fresh : forall l d d', workbook_loop l d = Ok d' -> Forall (fun s => xh_err s = None /\ xh_wrapped s = None) (xd_sheets d) -> Forall (fun s => xh_err s = None /\ xh_wrapped s = None) (xd_sheets d') /\ xd_fmt d' = xd_fmt d.
Proof.
  induction l as [|t l IH]; intros d d' E F; [injection E as <-; auto|]. destruct t as [n a|n|t|]; cbn [workbook_loop] in E; eauto. destruct (str_eqb n (bs "sheet")); eauto. destruct (map_attr a (bs "id")); [|discriminate]. destruct (map_attr a (bs "name")); [|discriminate].
  destruct (IH _ _ E) as [A B]; [cbn [xd_sheets]; apply Forall_app; split; [exact F|constructor; auto]|]. auto.
Qed.
Lemma parts_keep : forall (P : xdoc -> Prop) f, (forall x d d', f x d = Ok d' -> P d -> P d') -> forall l d d', parse_parts f l d = Ok d' -> P d -> P d'.
Proof.
  intros P f H. induction l as [|n l IH]; intros d d' E HP; cbn [parse_parts] in E; [injection E as <-; exact HP|]. apply bind_inv in E. destruct E as (d1 & E1 & E2). eapply IH; [exact E2|]. unfold need in E1. destruct (open_xml _ _); [|discriminate]. eauto.
Qed.
Lemma styles_1904 : forall l st st', styles_loop l st = Ok st' -> fx_1904 (sy_fmt st') = fx_1904 (sy_fmt st).
Proof.
  induction l as [|t l IH]; intros st st' E; [injection E as <-; reflexivity|]. destruct t as [n a|n|t|]; cbn [styles_loop] in E; try (rewrite (IH _ _ E); auto; fail).
  - apply bind_inv in E. destruct E as (s1 & E1 & E2). rewrite (IH _ _ E2). clear - E1. unfold style_start in E1. destruct (str_eqb n (bs "numFmt")); [injection E1 as <-; cbn [sy_fmt]; apply fx_add_1904|]. destruct (str_eqb n (bs "cellStyleXfs")); [injection E1 as <-; reflexivity|].
    destruct (str_eqb n (bs "cellXfs")); [cbv zeta in E1; destruct (_ || _); [discriminate|injection E1 as <-; reflexivity]|]. destruct (str_eqb n (bs "xf")); [|injection E1 as <-; reflexivity]. unfold style_xf in E1. cbv zeta in E1. destruct (sy_section st =? 1); [injection E1 as <-; reflexivity|]. destruct (sy_section st =? 2); [|discriminate].
    apply bind_inv in E1. destruct E1 as (x & _ & E1). injection E1 as <-. reflexivity.
  - rewrite (IH _ _ E). unfold style_end. destruct (_ || _); reflexivity.
Qed.
Definition opened (d : xdoc) : Prop := Forall (fun s => xh_err s = None /\ xh_wrapped s = None) (xd_sheets d) /\ fx_1904 (xd_fmt d) = false.
Lemma open_opened : forall order z d, open_doc order z = Ok d -> opened d.
Proof.
  intros order z d E. unfold open_doc in E. destruct (open_xml z (bs "_rels/.rels")) as [x|]; [|discriminate]. unfold parse_rels in E. destruct (end_err (xm_end x)); [discriminate|]. set (d1 := rels_loop [] (xm_toks x) (new_xdoc z)) in E.
  assert (O1 : opened d1) by (unfold opened, d1; destruct (rels_sheets [] (xm_toks x) (new_xdoc z)) as [-> ->]; split; [constructor|reflexivity]).
  destruct (xd_primary d1) as [|c p] eqn:EP; [discriminate|]. cbv zeta in E. unfold need in E. destruct (open_xml z _) as [x2|]; [|discriminate]. destruct (end_err (xm_end x2)); [discriminate|]. set (b := trim_suffix _ _) in E. set (d2 := rels_loop b (xm_toks x2) d1) in E.
  assert (O2 : opened d2) by (unfold opened, d2; destruct (rels_sheets b (xm_toks x2) d1) as [-> ->]; exact O1).
  destruct (open_xml z (xd_primary d2)) as [x3|]; [|discriminate]. apply bind_inv in E. destruct E as (d3 & E3 & E). apply bind_inv in E. destruct E as (d4 & E4 & E).
  assert (O3 : opened d3). { unfold parse_workbook in E3. apply bind_inv in E3. destruct E3 as (d5 & W & E3). destruct (end_err (xm_end x3)); [discriminate|]. injection E3 as <-. destruct (workbook_fresh _ _ _ W (proj1 O2)) as [A B]. split; [exact A|]. rewrite B. apply O2. }
  eapply (parts_keep opened parse_shared); [|exact E|]; [|eapply (parts_keep opened parse_styles); [|exact E4|exact O3]].
  - intros y e e' P O. unfold parse_shared in P. cbv zeta in P. destruct (end_err (xm_end y)); [discriminate|]. injection P as <-. exact O.
  - intros y e e' P O. unfold parse_styles in P. apply bind_inv in P. destruct P as (st & S & P). destruct (end_err (xm_end y)); [discriminate|]. injection P as <-. split; [apply O|]. cbn [xd_fmt]. rewrite (styles_1904 _ _ _ S). apply O.
Qed.
Theorem C64_opened_fresh : forall order f d, open_xlsx order f = Ok d -> fresh (mkXO d false).
Proof. intros order f d E. destruct f as [e|e|z]; try discriminate. split; [reflexivity|]. apply (open_opened order z d E). Qed.

(** ** C32 *)
(** The date system of the workbook is never read: dates of a 1904 workbook are wrong. *)
Theorem C32_xlsx_refuted : forall order f d, open_xlsx order f = Ok d -> fx_1904 (xd_fmt d) = false.
Proof. intros order f d E. destruct f as [e|e|z]; try discriminate. apply (open_opened order z d E). Qed.

(** ** C55 *)
Theorem C55_xlsx : forall o name, let '(o1, e) := doc_close o in
  (xo_closed o = false -> e = None) /\ doc_list o1 = [] /\ doc_get o1 name = Err ENoSheet /\ doc_close o1 = (o1, Some EClosed) /\
  (forall i, coll o1 i = coll o i) /\
  (forall i b o2, coll_next o i = Ok (b, o2) -> exists o3, coll_next o1 i = Ok (b, o3) /\ coll o3 i = coll o2 i).
Proof.
  intros o name. unfold doc_close. repeat split; cbn [xo_closed].
  - intros ->. reflexivity.
  - intros i b o2 N. unfold coll_next, coll in *. cbn [xo_doc]. destruct (nth_error (xd_sheets (xo_doc o)) i) as [s|] eqn:ES; [|discriminate]. destruct (xh_wrapped s) as [w|]; [|discriminate]. destruct (next w) as [b1 w1]. injection N as <- <-. eexists. split; [reflexivity|]. unfold set_coll. cbn [xo_doc]. rewrite ES. reflexivity.
Qed.

(** ** a workbook that meets the hypotheses *)
Definition ex_rel (id ty target : string) : xtok := XStart (bs "Relationship") [(bs "Id", bs id); (bs "Type", rel_uri ty); (bs "Target", bs target)].
Definition ex_xcell (ref : string) (more : list xattr) (col row : Z) (v : xval) : xitem :=
  XiCell (mkXC ((bs "r", bs ref) :: more) col row None [] None (Some ([XStart (bs "v") []], v)) [XEnd (bs "v")]).
Definition ex_xw : xwsheet := mkXW [XOther; XStart (bs "worksheet") []] (DimRange [(bs "ref", bs "A1:C4")] 0 0 2 3)
  [XiOther (XStart (bs "sheetData") []); XiOther (XChars [10]);
   ex_xcell "A1" [(bs "t", bs "s")] 0 0 (VShared 1);
   ex_xcell "B1" [] 1 0 (VNumber (bs "2.5"));
   ex_xcell "C2" [(bs "t", bs "b")] 2 1 (VBool true);
   XiCell (mkXC [(bs "r", bs "A2"); (bs "s", bs "1"); (bs "t", bs "str")] 0 1 (Some 1) [] (Some ([], bs "A1&""x""")) (Some ([XStart (bs "v") []], VText (bs "str") (bs "bx"))) [XEnd (bs "v")]);
   XiOther (XEnd (bs "sheetData"));
   XiMerge [(bs "ref", bs "A3:B4")] 0 2 1 3;
   XiLink [(bs "ref", bs "C1"); (bs "id", bs "rId1")] 2 0 (Some (bs "rId1"));
   XiOther (XEnd (bs "worksheet"))].
Definition ex_strings : list (list spart * list xtok) := [([SpText [] [bs "a"]], []); ([SpRun [] [] [bs "b"]; SpRun [] [] [bs "c"]], [XChars [10]])].
Definition ex_pkg : xpkg := mkPkg [bs "xl"] (bs "workbook.xml")
  [mkRel (bs "rId1") (rel_uri "worksheet") (bs "worksheets/sheet1.xml"); mkRel (bs "rId2") (rel_uri "styles") (bs "styles.xml"); mkRel (bs "rId3") (rel_uri "sharedStrings") (bs "/xl/sharedStrings.xml")]
  [(bs "First", bs "rId1")] ex_styles ex_strings.
Definition ex_zip : xzip :=
  [(bs "_rels/.rels", inl (mkXml [XStart (bs "Relationships") []; ex_rel "rId1" "officeDocument" "xl/workbook.xml"; XEnd (bs "Relationship"); XEnd (bs "Relationships")] EEOF));
   (bs "xl/_rels/workbook.xml.rels", inl (mkXml [ex_rel "rId1" "worksheet" "worksheets/sheet1.xml"; ex_rel "rId2" "styles" "styles.xml"; ex_rel "rId3" "sharedStrings" "/xl/sharedStrings.xml"] EEOF));
   (bs "xl/workbook.xml", inl (mkXml [XStart (bs "sheets") []; XStart (bs "sheet") [(bs "name", bs "First"); (bs "sheetId", bs "1"); (bs "id", bs "rId1")]; XEnd (bs "sheet"); XEnd (bs "sheets")] EEOF));
   (bs "xl/styles.xml", inl (mkXml (style_toks ex_styles) EEOF));
   (bs "xl/sharedStrings.xml", inl (mkXml (sst_toks [XStart (bs "sst") []] ex_strings) EEOF));
   (bs "xl/worksheets/sheet1.xml", inl (mkXml (xw_toks ex_xw) EEOF));
   (bs "xl/worksheets/_rels/sheet1.xml.rels", inl (mkXml [XStart (bs "Relationship") [(bs "Id", bs "rId1"); (bs "Type", rel_uri "hyperlink"); (bs "Target", bs "https://example.com/"); (bs "TargetMode", bs "External")]] EEOF))].
Ltac seg := split; [discriminate|split; [discriminate|split; [discriminate|intros A; vm_compute in A; intuition discriminate]]].
Ltac isrel := split; [attr|split; attr].
Example ex_package : package ex_zip ex_pkg.
Proof.
  split; [constructor; [seg|constructor]|]. split; [seg|]. split.
  { eexists. exists [], [(bs "Id", bs "rId1"); (bs "Type", rel_uri "officeDocument"); (bs "Target", bs "xl/workbook.xml")], [], (mkRel (bs "rId1") (rel_uri "officeDocument") (bs "xl/workbook.xml")), [], [].
    split; [reflexivity|]. split; [reflexivity|]. split; [isrel|]. repeat split; constructor. }
  split. { eexists. split; [reflexivity|]. repeat (constructor; [isrel|]). constructor. }
  split. { repeat (constructor; [intros A; vm_compute in A; intuition discriminate|]). constructor. }
  split. { repeat constructor. }
  split. { eexists. split; [reflexivity|]. constructor; [split; attr|constructor]. }
  split.
  - exists (TRel 0 [bs "styles.xml"]). eexists. split; [reflexivity|]. split; [split; [discriminate|split; [constructor; [seg|constructor]|cbn; lia]]|]. split; [reflexivity|]. split; [reflexivity|exact ex_styles_ok].
  - exists (TAbs [bs "xl"; bs "sharedStrings.xml"]). eexists. split; [reflexivity|]. split; [split; [discriminate|repeat (constructor; [seg|]); constructor]|]. split; [reflexivity|]. exists [XStart (bs "sst") []]. split; [reflexivity|]. split; [repeat constructor; discriminate|]. repeat constructor.
Qed.
Ltac cellok := unfold xcell_ok; cbn [xc_attrs xc_col xc_row xc_style xc_pre xc_formula xc_val xc_post opt_attr option_map type_attr snd];
  split; [attr|]; split; [unfold coord_ok; lia|]; split; [unfold coord_ok; lia|]; split; [attr|]; split; [intros s0 E0; first [discriminate|injection E0 as <-; vm_compute; split; [discriminate|reflexivity]]|]; split; [first [attr|left; attr]|];
  split; [repeat (constructor; [cbn [silent]; oth|]); constructor|]; split; [repeat (constructor; [cbn [silent]; oth|]); constructor|];
  split; [intros a0 t0 E0; first [discriminate|injection E0 as <- <-; split; [discriminate|do 2 eexists; split; [reflexivity|discriminate]]]|];
  intros op v E0; injection E0 as <- <-; split; [repeat (constructor; [cbn [silent]; oth|]); constructor|]; cbn [xval_ok]; try exact I; try (vm_compute; intuition discriminate); try (vm_compute; tauto).
Example ex_xw_ok : xw_ok (zlen (pkg_strings ex_pkg)) ex_xw.
Proof.
  split; [repeat (constructor; [oth|]); constructor|]. split; [cbn [xw_dim ex_xw xdim_ok]; split; [attr|unfold coord_ok; lia]|]. cbn [xw_items ex_xw].
  repeat (constructor; [first [oth|unfold ex_xcell; cbn [xitem_ok]; cellok|cbn [xitem_ok opt_attr]; split; [attr|unfold coord_ok; repeat split; try lia; attr]]|]). constructor.
Qed.
Example ex_C61 : sheet_part ex_pkg (bs "rId1") (path ([bs "xl"; bs "worksheets"] ++ [bs "sheet1.xml"])) /\ part_is ex_zip (path ([bs "xl"; bs "worksheets"] ++ [bs "sheet1.xml"])) (xw_toks ex_xw) /\
  sheet_targets ex_zip [bs "xl"; bs "worksheets"] (bs "sheet1.xml") (fun id => if str_eqb id (bs "rId1") then Some (bs "https://example.com/") else None) /\
  pkg_strings ex_pkg = [bs "a"; bs "bc"] /\ pkg_xfs ex_pkg = [14; 164; 0] /\ xw_size ex_xw = (2, 3) /\
  xw_writes (pkg_strings ex_pkg) (pkg_xfs ex_pkg) (fun id => if str_eqb id (bs "rId1") then Some (bs "https://example.com/") else None) ex_xw =
    [(0, 0, WPut (GStr (bs "bc")) 14); (0, 1, WPut (number_value (bs "2.5")) 14); (1, 2, WPut (GBool true) 14); (1, 0, WPut (GStr (bs "bx")) 164);
     (2, 1, WPut (GStr end_column_merged) 0); (3, 0, WPut (GStr end_row_merged) 0); (3, 1, WPut (GStr end_column_merged) 0); (0, 2, WLink (bs "https://example.com/"))].
Proof.
  split. { exists (mkRel (bs "rId1") (rel_uri "worksheet") (bs "worksheets/sheet1.xml")), (TRel 0 [bs "worksheets"; bs "sheet1.xml"]). split; [left; reflexivity|]. split; [reflexivity|]. split; [reflexivity|]. split; [reflexivity|]. split; [|reflexivity]. split; [discriminate|]. split; [repeat (constructor; [seg|]); constructor|cbn; lia]. }
  split; [reflexivity|]. split.
  { split; [discriminate|]. intros x E. assert (EL : elements "Relationship" (xm_toks x) = [[(bs "Id", bs "rId1"); (bs "Type", rel_uri "hyperlink"); (bs "Target", bs "https://example.com/"); (bs "TargetMode", bs "External")]]) by (injection E as <-; reflexivity). clear E. rewrite EL.
    assert (L : link_rel [(bs "Id", bs "rId1"); (bs "Type", rel_uri "hyperlink"); (bs "Target", bs "https://example.com/"); (bs "TargetMode", bs "External")] (bs "rId1") (bs "https://example.com/")) by (split; [attr|split; [attr|split; attr]]).
    split.
    - intros id t. split.
      + intros H. destruct (str_eqb id (bs "rId1")) eqn:EI; [|discriminate]. apply str_eqb_eq in EI. subst id. injection H as <-. eexists. split; [left; reflexivity|exact L].
      + intros (a & [<-|[]] & (L1 & L2 & _)). destruct L as (M1 & M2 & _). apply get_has in L1, L2, M1, M2. rewrite M1 in L1. rewrite M2 in L2. subst. reflexivity.
    - intros a [<-|[]]. left. eauto. }
  repeat split.
Qed.
(** small documents, run *)
Definition ex_doc (strs : list gostr) (l : list xtok) : xdoc := mkXDoc [(bs "s", inl (mkXml l EEOF))] [] [] [mkXSh (bs "rId1") (bs "First") (bs "s") None None] strs [] new_formatter.
Definition first_raw (r : res (sheet * option gerr)) : res (list (list goval)) := match r with Ok (s, _) => raw (snd (next s)) | Err e => Err e | Panic => Panic | NoFuel => NoFuel end.
Definition ex_c (ref ty : string) (l : list xtok) : list xtok := XStart (bs "c") [(bs "r", bs ref); (bs "t", bs ty)] :: l ++ [XEnd (bs "c")].
Definition ex_v (t : string) : list xtok := [XStart (bs "v") []; XChars (bs t); XEnd (bs "v")].
Example ex_C62 :
  first_raw (parse_xsheet (ex_doc [bs "zero"; bs "one"] (ex_c "A1" "str" ([XChars [32]] ++ ex_v "x") ++ ex_c "B1" "str" (ex_v "x" ++ [XChars [32]]) ++ ex_c "C1" "s" (ex_v "1") ++ ex_c "D1" "s" (ex_v "1" ++ [XChars [32]]))) (bs "s")) =
  Ok [[GStr (bs "x"); GCType StringCell]; [GStr [32]; GCType StringCell]; [GStr (bs "one"); GCType StringCell]; [GStr (bs "zero"); GCType StringCell]].
Proof. vm_compute. reflexivity. Qed.
Example ex_C63 :
  first_raw (parse_xsheet (ex_doc [] (ex_c "A1" "str" (ex_v "x") ++ [XStart (bs "hyperlink") [(bs "ref", bs "A1"); (bs "location", bs "Sheet2!A1")]])) (bs "s")) = Ok [[GNil; GCType HyperlinkStringCell; GInt KUint16 0; GStr []]] /\
  first_raw (parse_xsheet (ex_doc [] (ex_c "A1" "str" (ex_v "x") ++ [XStart (bs "hyperlink") [(bs "ref", bs "A1:B2")]])) (bs "s")) = Panic.
Proof. split; vm_compute; reflexivity. Qed.
Example ex_C64 : let o := mkXO (ex_doc [] (ex_c "A2" "str" (ex_v "x"))) false in fresh o /\
  match do_ops o [HGet (bs "First"); HNext 0; HGet (bs "none"); HNext 0; HNext 0; HNext 0; HGet (bs "First")] with
  | Ok o1 => match coll o1 0 with Some s => sh_cur s = 3 /\ fst (next s) = false | None => False end
  | _ => False
  end.
Proof. split; [split; [reflexivity|repeat constructor]|]. vm_compute. auto. Qed.
Example ex_C69 :
  first_raw (parse_xsheet (ex_doc [bs "a"] (ex_c "A1" "s" (ex_v "1"))) (bs "s")) = Panic /\ first_raw (parse_xsheet (ex_doc [bs "a"] (ex_c "A1" "s" (ex_v "-1"))) (bs "s")) = Panic /\
  first_raw (parse_xsheet (ex_doc [] (ex_c "A1" "b" (ex_v ""))) (bs "s")) = Panic.
Proof. repeat split; vm_compute; reflexivity. Qed.
Example ex_C70 : open_xlsx (fun l => l) (XZip ((bs "_rels/.rels", inl (mkXml [ex_rel "rId1" "officeDocument" "/xl/workbook.xml"] EEOF)) :: tl ex_zip)) = Err EEOF.
Proof. vm_compute. reflexivity. Qed.
Example ex_C71 : xw_writes [] [] (fun _ => None) (mkXW [] DimNone [XiMerge [] 0 0 1 1]) = [] /\ List.length (xw_writes [] [] (fun _ => None) (mkXW [] (DimRange [] 0 0 1 1) [XiMerge [] 0 0 1 1])) = 3%nat.
Proof. split; reflexivity. Qed.

Print Assumptions C57_round_trip.
Print Assumptions C57_letters_distinct.
Print Assumptions C58_panics.
Print Assumptions C58_total.
Print Assumptions C58_R1C1_refuted.
Print Assumptions C59_shared_strings.
Print Assumptions C59_phonetic_refuted.
Print Assumptions C59_space_refuted.
Print Assumptions C60_styles.
Print Assumptions C60_style_number.
Print Assumptions C60_large_refuted.
Print Assumptions C61_sheet.
Print Assumptions C61_workbook.
Print Assumptions C62_last_text.
Print Assumptions C62_trailing_refuted.
Print Assumptions C62_shared_refuted.
Print Assumptions C51_xlsx.
Print Assumptions C51_xlsx_inside.
Print Assumptions C71_merges_refuted.
Print Assumptions C71_width_refuted.
Print Assumptions C63_link.
Print Assumptions C63_text_lost_refuted.
Print Assumptions C63_unknown_refuted.
Print Assumptions C63_range_refuted.
Print Assumptions C70_absolute_refuted.
Print Assumptions C69_shared_index_refuted.
Print Assumptions C69_bool_refuted.
Print Assumptions C69_style_index_refuted.
Print Assumptions C69_styles_refuted.
Print Assumptions C64_history.
Print Assumptions C64_missing.
Print Assumptions C64_exhausted_refuted.
Print Assumptions C64_opened_fresh.
Print Assumptions C32_xlsx_refuted.
Print Assumptions C55_xlsx.
